(** * Props_Unicode: operations on unicode texts (C88). *)
From Coq Require Import Strings.String.
From Coq Require Import List ZArith NArith Bool Lia ZifyBool ZifyNat ZifyN.
From Coq.Init Require Import Byte.
From Verif Require Import PyBase PyFacts Base64 Aes Sha1 Der ModArith Util UtilFacts KeyInfo SymKeys AsymKeys Keys KeyData Keyczar Streams Unicode.
From Verif Require Import Props_More Props_Keyset Props_Sign Props_Disk Props_Asym Props_Rsa Props_Stream.
Import ListNotations.
Local Open Scope Z_scope.

(** ** Specification *)

(** Byte strings of ASCII characters. *)
Definition ascii (s : str) : Prop := Forall (fun c => ord c < 128) s.

(** The value spells the byte string [s]: it is [s], or the unicode text of the same ASCII characters. *)
Definition spells (v : pystr) (s : str) : Prop := v = B s \/ (ascii s /\ v = U (text_of_str s)).
Definition spells_opt (v : option pystr) (s : option str) : Prop :=
  match v, s with Some v, Some s => spells v s | None, None => True | _, _ => False end.

(** A unicode text with a character outside ASCII. *)
Definition foreign (v : pystr) : Prop := exists t, v = U t /\ exists c, In c t /\ (128 <= c)%N.

(** A Base64 text given as a value; the texts a codec or a form field holds have no control characters other
    than tabs and line ends. *)
Definition spells_b64 (v : pystr) (s : str) : Prop :=
  v = B s \/ (Forall (fun c => ord c < 128 /\ ord c <> 11 /\ ord c <> 12 /\ ~ 28 <= ord c <= 30) s /\ v = U (text_of_str s)).

(** The answer on byte strings, as a value. *)
Definition in_bytes (r : res str) : res pystr := let* s := r in Ok (B s).

(** ** Lemmas *)
Lemma len_text s : len (text_of_str s) = len s.
Proof. unfold len, text_of_str. rewrite map_length. reflexivity. Qed.

Lemma spells_len v s : spells v s -> u_len v = len s.
Proof. intros [->|[_ ->]]; [reflexivity | apply len_text]. Qed.

Lemma spells_bytes v s : spells v s -> as_bytes v = Ok s.
Proof. intros [->|[H ->]]; [reflexivity | apply str_of_text_of_str, H]. Qed.

Lemma str_of_text_inv : forall t s, str_of_text t = Ok s -> ascii s /\ t = text_of_str s.
Proof.
  unfold str_of_text. induction t as [|c t IH]; intros s H; cbn [mapM] in H.
  - injection H as <-. split; [constructor | reflexivity].
  - destruct (N.ltb_spec c 128) as [L|L]; [|discriminate H]. destruct (Byte.of_N c) as [b|] eqn:EB; [|discriminate H]. cbn [bind] in H.
    destruct (mapM _ t) as [s'|]; [|discriminate H]. cbn [bind] in H. injection H as <-. destruct (IH s' eq_refl) as [A ->].
    apply Byte.to_of_N in EB. split; [constructor; [unfold ord; lia | exact A]|]. cbn. rewrite EB. reflexivity.
Qed.

Lemma str_of_text_err : forall t e, str_of_text t = Raise e -> e = UnicodeError /\ exists c, In c t /\ (128 <= c)%N.
Proof.
  unfold str_of_text. induction t as [|c t IH]; intros e H; cbn [mapM] in H; [discriminate|].
  destruct (N.ltb_spec c 128) as [L|L].
  - destruct (Byte.of_N c) as [b|] eqn:EB.
    + cbn [bind] in H. destruct (mapM _ t) as [s'|e']; [discriminate H|]. cbn [bind] in H. injection H as <-.
      destruct (IH e' eq_refl) as (-> & c' & HI & HL). split; [reflexivity|]. exists c'. split; [right; exact HI | exact HL].
    + apply Byte.of_N_None_iff in EB. lia.
  - cbn [bind] in H. injection H as <-. split; [reflexivity|]. exists c. split; [left; reflexivity | exact L].
Qed.

Lemma bytes_spells v s : as_bytes v = Ok s -> spells v s.
Proof. destruct v as [x|t]; cbn [as_bytes]; intros H; [injection H as ->; left; reflexivity | destruct (str_of_text_inv t s H) as [A ->]; right; split; [exact A | reflexivity]]. Qed.

Lemma foreign_bytes v : foreign v -> as_bytes v = Raise UnicodeError.
Proof.
  intros (t & -> & c & HI & HL). cbn [as_bytes]. destruct (str_of_text t) as [s|e] eqn:E; [|apply str_of_text_err in E as [-> _]; reflexivity].
  destruct (str_of_text_inv t s E) as [A ->]. exfalso. unfold text_of_str in HI. apply in_map_iff in HI as (b & <- & HB).
  unfold ascii in A. rewrite Forall_forall in A. specialize (A b HB). unfold ord in A. lia.
Qed.

(** Every value spells a byte string or is foreign. *)
Lemma spells_or_foreign v : (exists s, spells v s) \/ foreign v.
Proof.
  destruct (as_bytes v) as [s|e] eqn:E; [left; exists s; apply bytes_spells, E|]. right. destruct v as [x|t]; [discriminate|].
  cbn in E. apply str_of_text_err in E as [_ H]. exists t. split; [reflexivity | exact H].
Qed.

Definition asciib (s : str) : bool := forallb (fun c => ord c <? 128) s.
Lemma asciib_spec s : asciib s = true <-> ascii s.
Proof. unfold asciib, ascii. rewrite forallb_forall, Forall_forall. split; intros H x HI; specialize (H x HI); lia. Qed.
Lemma asciib_app a b : asciib (a ++ b) = asciib a && asciib b.
Proof. apply forallb_app. Qed.
Lemma ascii_app a b : ascii (a ++ b) <-> ascii a /\ ascii b.
Proof. apply Forall_app. Qed.
Lemma asciib_false s : asciib s = false <-> exists c, In c s /\ 128 <= ord c.
Proof.
  split.
  - intros H. destruct (existsb (fun c => 128 <=? ord c) s) eqn:E.
    + apply existsb_exists in E as (c & HI & HC). exists c. split; [exact HI | lia].
    + exfalso. assert (asciib s = true); [|congruence]. apply forallb_forall. intros x HI. destruct (128 <=? ord x) eqn:EX; [|lia].
      assert (existsb (fun c => 128 <=? ord c) s = true) by (apply existsb_exists; exists x; split; assumption). congruence.
  - intros (c & HI & HC). destruct (asciib s) eqn:E; [|reflexivity]. unfold asciib in E. rewrite forallb_forall in E. specialize (E c HI). lia.
Qed.
Lemma to_unicode_eq s : to_unicode s = if asciib s then Ok (text_of_str s) else Raise UnicodeError.
Proof. reflexivity. Qed.
Lemma text_app a b : text_of_str (a ++ b) = text_of_str a ++ text_of_str b.
Proof. apply map_app. Qed.

(** Adding two values. *)
Lemma add_spells a x b y r : spells a x -> spells b y -> u_add a b = r ->
  (exists v, r = Ok v /\ spells v (x ++ y)) \/ (r = Raise UnicodeError /\ asciib (x ++ y) = false).
Proof.
  intros [->|[A ->]] [->|[C ->]] <-; cbn [u_add]; rewrite ?to_unicode_eq, ?asciib_app.
  - left. eexists. split; [reflexivity | left; reflexivity].
  - destruct (asciib x) eqn:E; cbn [bind andb].
    + left. eexists. split; [reflexivity|]. right. split; [apply ascii_app; split; [apply asciib_spec, E | exact C]|]. rewrite text_app. reflexivity.
    + right. split; reflexivity.
  - destruct (asciib y) eqn:E; cbn [bind].
    + left. eexists. split; [reflexivity|]. right. split; [apply ascii_app; split; [exact A | apply asciib_spec, E]|]. rewrite text_app. reflexivity.
    + right. split; [reflexivity | apply andb_false_r].
  - left. eexists. split; [reflexivity|]. right. split; [apply ascii_app; split; assumption|]. rewrite text_app. reflexivity.
Qed.

Lemma add_ascii v s y : spells v s -> ascii y -> exists w, u_add v (B y) = Ok w /\ spells w (s ++ y).
Proof.
  intros [->|[A ->]] H; cbn [u_add].
  - eexists. split; [reflexivity | left; reflexivity].
  - rewrite to_unicode_eq, (proj2 (asciib_spec y) H). cbn [bind]. eexists. split; [reflexivity|]. right. split; [apply ascii_app; split; assumption|]. rewrite text_app. reflexivity.
Qed.

Lemma add_bytes_inv a b s : u_add a b = Ok (B s) -> exists x y, a = B x /\ b = B y /\ s = x ++ y.
Proof.
  destruct a as [x|x], b as [y|y]; cbn [u_add]; try (destruct (to_unicode _); discriminate); try discriminate.
  intros H. injection H as <-. exists x, y. repeat split.
Qed.

(** A value that is not foreign was added up from values that are not. *)
Lemma add_parts a b v s : u_add a b = Ok v -> spells v s -> exists x y, spells a x /\ spells b y /\ s = x ++ y.
Proof.
  intros H HS. destruct a as [x|x], b as [y|y]; cbn [u_add] in H; rewrite ?to_unicode_eq in H.
  - injection H as <-. destruct HS as [E|[_ E]]; [injection E as <-|discriminate]. exists x, y. repeat split; left; reflexivity.
  - destruct (asciib x) eqn:E; [|discriminate]. cbn [bind] in H. injection H as <-. destruct HS as [C|[A C]]; [discriminate|]. injection C as C.
    unfold text_of_str in C. symmetry in C. apply map_eq_app in C as (p & q & -> & C1 & C2). apply ascii_app in A as [A1 A2].
    apply text_of_str_inj in C1 as ->. exists x, q. split; [left; reflexivity|]. split; [right; split; [exact A2 | rewrite <- C2; reflexivity] | reflexivity].
  - destruct (asciib y) eqn:E; [|discriminate]. cbn [bind] in H. injection H as <-. destruct HS as [C|[A C]]; [discriminate|]. injection C as C.
    unfold text_of_str in C. symmetry in C. apply map_eq_app in C as (p & q & -> & C1 & C2). apply ascii_app in A as [A1 A2].
    apply text_of_str_inj in C2 as ->. exists p, y. split; [right; split; [exact A1 | rewrite <- C1; reflexivity]|]. split; [left; reflexivity | reflexivity].
  - injection H as <-. destruct HS as [C|[A C]]; [discriminate|]. injection C as C.
    unfold text_of_str in C. symmetry in C. apply map_eq_app in C as (p & q & -> & C1 & C2). apply ascii_app in A as [A1 A2].
    exists p, q. split; [right; split; [exact A1 | rewrite <- C1; reflexivity]|]. split; [right; split; [exact A2 | rewrite <- C2; reflexivity] | reflexivity].
Qed.

(** ** Encrypting *)
Lemma pad_ascii n : 1 <= n <= 16 -> ascii (rep n (chr n)).
Proof. intros H. apply Forall_forall. intros c HI. unfold rep in HI. apply repeat_spec in HI as ->. rewrite ord_chr_small; lia. Qed.

Lemma Pad_spells v s : spells v s -> exists w, u_Pad v = Ok w /\ spells w (Pad s).
Proof.
  intros H. unfold u_Pad, Pad. rewrite (spells_len v s H). apply add_ascii; [exact H|]. apply pad_ascii. change block_size with 16. lia.
Qed.

Lemma aes_encrypt_spells m2 lib k r v s : spells v s -> (lib = PyCrypto \/ v = B s) -> u_AesKey_Encrypt m2 lib k r v = AesKey_Encrypt lib k r s.
Proof.
  intros H HL. unfold u_AesKey_Encrypt, AesKey_Encrypt. destruct (Pad_spells v s H) as (w & E & HW). rewrite E. cbn [bind].
  destruct (aes_bytes k) as [kb|]; [|reflexivity]. cbn [bind]. destruct (CreateCipher lib kb _) as [c|] eqn:EC; [|reflexivity]. cbn [bind].
  assert (EU : u_adaptor_encrypt m2 c w = adaptor_encrypt c (Pad s)); [|rewrite EU; reflexivity].
  unfold u_adaptor_encrypt. destruct HL as [->| ->].
  - unfold CreateCipher in EC. destruct (AES_new kb _); [|discriminate]. cbn [bind] in EC. injection EC as <-.
    destruct w; rewrite (spells_bytes _ _ HW); reflexivity.
  - unfold u_Pad in E. cbn [u_add] in E. injection E as <-. cbn [as_bytes bind u_len]. reflexivity.
Qed.

Lemma oaep_bytes k s seed : u_oaep_encode k (B s) seed = oaep_encode k s seed.
Proof.
  unfold u_oaep_encode, oaep_encode. cbn [u_len u_add]. destruct (_ <? _); [reflexivity|]. destruct (_ <? _); [reflexivity|]. cbn [bind u_Xor].
  destruct (MGF seed _); [|reflexivity]. cbn [bind]. rewrite <- !app_assoc. reflexivity.
Qed.

(** Text of ASCII characters is encrypted as the same bytes: for every AES key and every encoder, and for bytes
    in general this is the operation of the other files. *)
Theorem C88_encrypt : forall m2 e ks k v s encoder, primary_key ks = Ok k -> spells v s ->
  v = B s \/ (e_lib e = PyCrypto /\ exists a, k = KAes a) ->
  u_Encrypt m2 e ks v encoder = in_bytes (Encrypt e ks s encoder).
Proof.
  intros m2 e ks k v s encoder HK HS HV. unfold u_Encrypt, Encrypt. rewrite HK. cbn [bind].
  assert (E : u_key_Encrypt m2 e k v = key_Encrypt e k s).
  { destruct HV as [->|(HL & a & ->)].
    - destruct k; cbn [u_key_Encrypt key_Encrypt]; try reflexivity;
        solve [ apply aes_encrypt_spells; [left; reflexivity | right; reflexivity]
              | unfold u_RsaPublicKey_Encrypt, RsaPublicKey_Encrypt; rewrite oaep_bytes; reflexivity ].
    - cbn [u_key_Encrypt key_Encrypt]. apply aes_encrypt_spells; [exact HS | left; exact HL]. }
  rewrite E. destruct (key_Encrypt e k s) as [c|]; [|reflexivity]. cbn [bind]. destruct encoder as [f|]; [|reflexivity].
  cbn [u_encode apply_codec as_bytes bind]. reflexivity.
Qed.
Print Assumptions C88_encrypt.

Lemma add_foreign_l a b v : foreign a -> u_add a b = Ok v -> foreign v.
Proof.
  intros (t & -> & c & HI & HL) H. destruct b as [y|y]; cbn [u_add] in H.
  - destruct (to_unicode y) as [y'|]; [|discriminate]. cbn [bind] in H. injection H as <-. exists (t ++ y'). split; [reflexivity|]. exists c. split; [apply in_or_app; left; exact HI | exact HL].
  - injection H as <-. exists (t ++ y). split; [reflexivity|]. exists c. split; [apply in_or_app; left; exact HI | exact HL].
Qed.

Lemma add_foreign_r a b v : foreign b -> u_add a b = Ok v -> foreign v.
Proof.
  intros (t & -> & c & HI & HL) H. destruct a as [y|y]; cbn [u_add] in H.
  - destruct (to_unicode y) as [y'|]; [|discriminate]. cbn [bind] in H. injection H as <-. exists (y' ++ t). split; [reflexivity|]. exists c. split; [apply in_or_app; right; exact HI | exact HL].
  - injection H as <-. exists (y ++ t). split; [reflexivity|]. exists c. split; [apply in_or_app; right; exact HI | exact HL].
Qed.

Lemma Pad_foreign v : foreign v -> exists w, u_Pad v = Ok w /\ foreign w.
Proof.
  intros H. unfold u_Pad. set (pad := block_size - u_len v mod block_size).
  assert (P : asciib (rep pad (chr pad)) = true) by (apply asciib_spec, pad_ascii; unfold pad; change block_size with 16; lia).
  assert (exists w, u_add v (B (rep pad (chr pad))) = Ok w) as [w E].
  { destruct H as (t & -> & _). cbn [u_add]. rewrite to_unicode_eq, P. eexists. reflexivity. }
  exists w. split; [exact E | apply (add_foreign_l _ _ _ H E)].
Qed.

(** Text with other characters is refused with UnicodeEncodeError by every AES key whose material can be read, and
    never encrypted. *)
Theorem C88_encrypt_foreign : forall m2 e ks a v encoder, primary_key ks = Ok (KAes a) -> e_lib e = PyCrypto -> foreign v ->
  (forall r, u_Encrypt m2 e ks v encoder <> Ok r) /\
  (forall kb iv c, aes_bytes a = Ok kb -> iv = RandBytes (e_tape e) 16 -> AES_new kb iv = Ok c -> u_Encrypt m2 e ks v encoder = Raise UnicodeError).
Proof.
  intros m2 e ks a v encoder HK HL HF.
  assert (E : forall kb c, aes_bytes a = Ok kb -> CreateCipher (e_lib e) kb (RandBytes (e_tape e) block_size) = Ok c ->
    u_Encrypt m2 e ks v encoder = Raise UnicodeError).
  { intros kb c EK EC. unfold u_Encrypt. rewrite HK. cbn [bind u_key_Encrypt]. unfold u_AesKey_Encrypt.
    destruct (Pad_foreign v HF) as (w & EP & HW). rewrite EP. cbn [bind]. rewrite EK. cbn [bind]. rewrite EC. cbn [bind].
    unfold u_adaptor_encrypt. rewrite HL in EC. unfold CreateCipher in EC. destruct (AES_new kb _); [|discriminate]. cbn [bind] in EC. injection EC as <-.
    pose proof (foreign_bytes w HW) as EB. destruct w; rewrite EB; reflexivity. }
  split.
  - intros r. destruct (aes_bytes a) as [kb|] eqn:EK.
    + destruct (CreateCipher (e_lib e) kb (RandBytes (e_tape e) block_size)) as [c|] eqn:EC; [rewrite (E kb c eq_refl EC); discriminate|].
      unfold u_Encrypt. rewrite HK. cbn [bind u_key_Encrypt]. unfold u_AesKey_Encrypt. destruct (u_Pad v); [|discriminate]. cbn [bind]. rewrite EK. cbn [bind]. rewrite EC. discriminate.
    + unfold u_Encrypt. rewrite HK. cbn [bind u_key_Encrypt]. unfold u_AesKey_Encrypt. destruct (u_Pad v); [|discriminate]. cbn [bind]. rewrite EK. discriminate.
  - intros kb iv c EK -> EA. apply (E kb (AESAdaptor c) EK). rewrite HL. unfold CreateCipher. change block_size with 16. rewrite EA. reflexivity.
Qed.
Print Assumptions C88_encrypt_foreign.

(** RSA keys encrypt no unicode text at all, not even the empty one: the hash of the empty label, which stands
    before the text, has bytes over 127. *)
Theorem C88_rsa_encrypt_refuted : forall m2 e ks k p t encoder, primary_key ks = Ok k -> (k = KRsaPub p \/ exists d, k = KRsaPriv d /\ p = rs_pub d) ->
  u_Encrypt m2 e ks (U t) encoder = Raise (if len t <=? num_bytes (rn_n (rp_key p)) - 42 then UnicodeError else KeyczarError).
Proof.
  intros m2 e ks k p t encoder HK HP. unfold u_Encrypt. rewrite HK. cbn [bind].
  assert (E : u_key_Encrypt m2 e k (U t) = u_RsaPublicKey_Encrypt p (e_tape e) (U t)) by (destruct HP as [->|(d & -> & ->)]; reflexivity).
  rewrite E. unfold u_RsaPublicKey_Encrypt, u_oaep_encode. cbn [u_len]. set (n := num_bytes (rn_n (rp_key p))). change HLEN with 20.
  destruct (Z.ltb_spec (n - 2 * 20 - 2) (len t)) as [L|L].
  - replace (len t <=? n - 42) with false by lia. reflexivity.
  - replace (len t <=? n - 42) with true by lia. replace (n - len t - 2 * 20 - 2 <? 0) with false by lia.
    assert (H : exists h, Hash [[]] = xda :: h) by (eexists; vm_compute; reflexivity). destruct H as [h ->].
    cbn [u_add app]. rewrite to_unicode_eq. cbn [asciib forallb]. change (ord xda <? 128) with false. reflexivity.
Qed.
Print Assumptions C88_rsa_encrypt_refuted.

(** ** Decrypting *)
Lemma decode_spells v s : spells_b64 v s -> u_Base64WSDecode v = Base64WSDecode s.
Proof. intros [->|[H ->]]; [reflexivity|]. cbn [u_Base64WSDecode]. apply (proj1 C03_unicode_agrees), H. Qed.

(** A ciphertext may be given as unicode text. *)
Theorem C88_decrypt : forall ks v s, spells_b64 v s -> u_Decrypt ks v = Decrypt ks s b64_decoder.
Proof. intros ks v s H. unfold u_Decrypt, Decrypt. rewrite (decode_spells v s H). reflexivity. Qed.
Print Assumptions C88_decrypt.

(** ** Signing and verifying *)
Lemma Hash_spells v s : spells v s -> u_Hash v = Ok (Hash [s]).
Proof. intros H. unfold u_Hash. rewrite (spells_bytes v s H). reflexivity. Qed.
Lemma Emsa_spells v s n : spells v s -> u_MakeEmsaMessage v n = Ok (MakeEmsaMessage s n).
Proof. intros H. unfold u_MakeEmsaMessage. rewrite (Hash_spells v s H). reflexivity. Qed.
Lemma Emsa_foreign v n : foreign v -> u_MakeEmsaMessage v n = Raise UnicodeError.
Proof. intros H. unfold u_MakeEmsaMessage, u_Hash. rewrite (foreign_bytes v H). reflexivity. Qed.

Lemma key_Sign_spells e k v s : spells v s -> u_key_Sign e k v = key_Sign e k s.
Proof.
  intros H. destruct k; cbn [u_key_Sign key_Sign]; try reflexivity.
  - unfold u_HmacKey_Sign, HmacKey_Sign. rewrite (spells_bytes v s H). reflexivity.
  - unfold u_DsaPrivateKey_Sign, DsaPrivateKey_Sign. destruct (randint2 _ _); [|reflexivity]. cbn [bind]. rewrite (Hash_spells v s H). reflexivity.
  - unfold u_RsaPrivateKey_Sign, RsaPrivateKey_Sign. rewrite (Emsa_spells v s _ H). reflexivity.
Qed.

Lemma key_Sign_foreign e k v r : foreign v -> u_key_Sign e k v <> Ok r.
Proof.
  intros H. destruct k; cbn [u_key_Sign]; try discriminate.
  - unfold u_HmacKey_Sign. destruct (hmac_bytes _); [|discriminate]. cbn [bind]. rewrite (foreign_bytes v H). discriminate.
  - unfold u_DsaPrivateKey_Sign. destruct (randint2 _ _); [|discriminate]. cbn [bind]. unfold u_Hash. rewrite (foreign_bytes v H). discriminate.
  - unfold u_RsaPrivateKey_Sign. rewrite (Emsa_foreign v _ H). discriminate.
Qed.

Lemma key_Verify_spells k v s sig : spells v s -> u_key_Verify k v sig = key_Verify k s sig.
Proof.
  intros H. destruct k; cbn [u_key_Verify key_Verify]; try reflexivity;
    try (unfold u_RsaPublicKey_Verify; rewrite (Emsa_spells v s _ H); reflexivity);
    try (unfold u_DsaPublicKey_Verify, DsaPublicKey_Verify; destruct (ParseDsaSig sig) as [[r0 s0]|]; cbn [bind]; [rewrite (Hash_spells v s H); reflexivity | reflexivity]).
  unfold u_HmacKey_Verify, HmacKey_Verify, u_HmacKey_Sign, HmacKey_Sign. rewrite (spells_bytes v s H). reflexivity.
Qed.

Lemma key_Verify_foreign k v sig : foreign v -> u_key_Verify k v sig <> Ok true.
Proof.
  intros H. destruct k; cbn [u_key_Verify]; try discriminate;
    try (unfold u_RsaPublicKey_Verify; rewrite (Emsa_foreign v _ H); discriminate);
    try (unfold u_DsaPublicKey_Verify; destruct (ParseDsaSig sig) as [[r0 s0]|e0]; cbn [bind]; [unfold u_Hash; rewrite (foreign_bytes v H); discriminate | destruct (is_keyczar_error e0); discriminate]).
  unfold u_HmacKey_Verify, u_HmacKey_Sign. destruct (hmac_bytes _); [|discriminate]. cbn [bind]. rewrite (foreign_bytes v H). discriminate.
Qed.

(** The text that is signed. *)
Definition payload (data : str) (nonce : option str) : res str :=
  let* p := PackByteArray nonce in Ok (data ++ p ++ VERSION_BYTE).

Lemma version_ascii : asciib VERSION_BYTE = true. Proof. reflexivity. Qed.

Definition all_bytes_given (v : pystr) (nv : option pystr) : bool :=
  match v, nv with B _, None | B _, Some (B _) => true | _, _ => false end.

Lemma payload_spells v s nv n m : spells v s -> spells_opt nv n -> payload s n = Ok m ->
  (exists w, u_payload v nv = Ok w /\ spells w m) \/ (u_payload v nv = Raise UnicodeError /\ all_bytes_given v nv = false /\ asciib m = false).
Proof.
  intros HS HN HP. unfold payload in HP. destruct (PackByteArray n) as [p|] eqn:EP; [|discriminate]. cbn [bind] in HP. injection HP as <-.
  assert (HPk : (exists w, u_PackByteArray nv = Ok w /\ spells w p /\ (all_bytes_given v nv = true -> w = B p)) \/
                (u_PackByteArray nv = Raise UnicodeError /\ all_bytes_given v nv = false /\ asciib p = false)).
  { destruct nv as [nv|], n as [n|]; cbn [spells_opt] in HN; try contradiction; cbn [PackByteArray u_PackByteArray] in *.
    - rewrite (spells_len nv n HN). destruct (struct_pack_i (len n)) as [h|]; [|discriminate]. cbn [bind] in *. injection EP as <-.
      destruct (add_spells (B h) h nv n _ (or_introl eq_refl) HN eq_refl) as [(w & E & HW)|[E HA]].
      + left. exists w. split; [exact E|]. split; [exact HW|]. intros HB. destruct v, nv as [y|y]; try discriminate. cbn [u_add] in E. injection E as <-.
        destruct HN as [HN|[_ HN]]; [injection HN as ->; reflexivity | discriminate].
      + right. split; [exact E|]. split; [|exact HA]. destruct nv as [y|y]; [discriminate E | destruct v; reflexivity].
    - injection EP as <-. left. exists (B []). split; [reflexivity|]. split; [left; reflexivity | reflexivity]. }
  unfold u_payload. rewrite !asciib_app. destruct HPk as [(w & -> & HW & HB)|(-> & HA & HP)].
  - cbn [bind]. destruct (add_spells v s w p _ HS HW eq_refl) as [(x & E & HX)|[E HA]].
    + rewrite E. cbn [bind]. left. destruct (add_ascii x (s ++ p) VERSION_BYTE HX (proj1 (asciib_spec _) version_ascii)) as (y & E2 & HY).
      exists y. split; [exact E2|]. rewrite app_assoc. exact HY.
    + rewrite E. cbn [bind]. right. split; [reflexivity|]. rewrite asciib_app in HA. split; [|apply andb_false_iff in HA as [-> | ->]; [reflexivity | apply andb_false_r]].
      destruct (all_bytes_given v nv) eqn:EB; [|reflexivity]. rewrite (HB eq_refl) in E. destruct v; [discriminate E | discriminate EB].
  - cbn [bind]. right. split; [reflexivity|]. split; [exact HA|]. rewrite HP. apply andb_false_r.
Qed.

Lemma payload_foreign v nv w : foreign v -> u_payload v nv = Ok w -> foreign w.
Proof.
  intros HF H. unfold u_payload in H. destruct (u_PackByteArray nv) as [p|]; [|discriminate]. cbn [bind] in H.
  destruct (u_add v p) as [x|] eqn:E; [|discriminate]. cbn [bind] in H. apply (add_foreign_l x _ _ (add_foreign_l _ _ _ HF E) H).
Qed.

Lemma payload_None v s : spells v s -> exists w, u_payload v None = Ok w /\ spells w (s ++ [] ++ VERSION_BYTE).
Proof.
  intros H. unfold u_payload. cbn [u_PackByteArray bind]. destruct (add_ascii v s [] H ltac:(constructor)) as (x & -> & HX). cbn [bind].
  rewrite app_nil_r in HX. apply (add_ascii x s VERSION_BYTE HX (proj1 (asciib_spec _) version_ascii)).
Qed.

(** Detached and unversioned signatures of text in ASCII characters are those of the same bytes, for every kind of
    key: signed as one and verified as the other, they are accepted. *)
Theorem C88_sign : forall e ks v s encoder, spells v s ->
  u_Sign e ks v encoder = in_bytes (Sign e ks s encoder) /\ u_UnversionedSign e ks v encoder = in_bytes (UnversionedSign e ks s encoder).
Proof.
  intros e ks v s encoder H.
  assert (EN : forall x, u_encode encoder (B x) = in_bytes (apply_codec encoder x)) by (intros x; destruct encoder; reflexivity). split.
  - unfold u_Sign, Sign. destruct (primary_key ks) as [k|] eqn:HK; [|reflexivity]. cbn [bind]. destruct (key_header k); [|reflexivity]. cbn [bind].
    unfold u_InternalSign, InternalSign. rewrite HK. cbn [bind PackByteArray]. destruct (payload_None v s H) as (w & -> & HW). cbn [bind].
    rewrite (key_Sign_spells e k w _ HW). destruct (key_Sign e k _); [|reflexivity]. cbn [bind]. apply EN.
  - unfold u_UnversionedSign, UnversionedSign. destruct (primary_key ks) as [k|]; [|reflexivity]. cbn [bind]. rewrite (key_Sign_spells e k v s H).
    destruct (key_Sign e k s); [|reflexivity]. cbn [bind]. apply EN.
Qed.
Print Assumptions C88_sign.

Theorem C88_verify : forall ks v s sv sig, spells v s -> spells_b64 sv sig ->
  u_Verify ks v sv = Verify ks s sig b64_decoder /\ u_UnversionedVerify ks v sv = UnversionedVerify ks s sig b64_decoder.
Proof.
  intros ks v s sv sig H HS. split.
  - unfold u_Verify, Verify. rewrite (decode_spells sv sig HS). cbn [apply_codec b64_decoder]. destruct (Base64WSDecode sig) as [b|]; [|reflexivity]. cbn [bind].
    destruct (_ <? _); [reflexivity|]. unfold u_InternalVerify, InternalVerify. destruct (ParseHeader ks _) as [k|]; [|reflexivity]. cbn [bind PackByteArray].
    destruct (payload_None v s H) as (w & -> & HW). cbn [bind]. apply key_Verify_spells, HW.
  - unfold u_UnversionedVerify, UnversionedVerify. rewrite (decode_spells sv sig HS). cbn [apply_codec b64_decoder]. destruct (Base64WSDecode sig) as [b|]; [|reflexivity]. cbn [bind].
    induction (ks_vkeys ks) as [|[o k] l IH]; [reflexivity|]. cbn [u_verify_any verify_any]. rewrite (key_Verify_spells k v s b H).
    destruct (key_Verify k s b) as [[|]|]; cbn [bind]; [reflexivity | exact IH | reflexivity].
Qed.
Print Assumptions C88_verify.

(** Text with other characters is never signed, and no signature of it is accepted. *)
Theorem C88_foreign : forall e ks v encoder sv nv, foreign v ->
  (forall r, u_Sign e ks v encoder <> Ok r) /\ (forall r, u_UnversionedSign e ks v encoder <> Ok r) /\
  (forall r, u_AttachedSign e ks v nv encoder <> Ok r) /\
  u_Verify ks v sv <> Ok true /\ u_UnversionedVerify ks v sv <> Ok true.
Proof.
  intros e ks v encoder sv nv HF.
  assert (HI : forall n r, u_InternalSign e ks v n <> Ok r).
  { intros n r. unfold u_InternalSign. destruct (primary_key ks) as [k|]; [|discriminate]. cbn [bind]. destruct (u_payload v n) as [w|] eqn:E; [|discriminate]. cbn [bind].
    apply key_Sign_foreign, (payload_foreign v n w HF E). }
  split; [|split; [|split; [|split]]].
  - intros r. unfold u_Sign. destruct (primary_key ks) as [k|]; [|discriminate]. cbn [bind]. destruct (key_header k); [|discriminate]. cbn [bind].
    destruct (u_InternalSign e ks v None) eqn:E; [exfalso; apply (HI _ _ E) | discriminate].
  - intros r. unfold u_UnversionedSign. destruct (primary_key ks) as [k|]; [|discriminate]. cbn [bind]. destruct (u_key_Sign e k v) eqn:E; [exfalso; apply (key_Sign_foreign _ _ _ _ HF E) | discriminate].
  - intros r. unfold u_AttachedSign. destruct (primary_key ks) as [k|]; [|discriminate]. cbn [bind]. destruct (key_header k); [|discriminate]. cbn [bind].
    destruct (u_PackByteArray (Some v)); [|discriminate]. cbn [bind]. destruct (u_add _ _); [|discriminate]. cbn [bind].
    destruct (u_InternalSign e ks v nv) eqn:E; [exfalso; apply (HI _ _ E) | discriminate].
  - unfold u_Verify. destruct (u_Base64WSDecode sv); [|discriminate]. cbn [bind]. destruct (_ <? _); [discriminate|]. unfold u_InternalVerify.
    destruct (ParseHeader ks _); [|discriminate]. cbn [bind]. destruct (u_payload v None) as [w|] eqn:E; [|discriminate]. cbn [bind]. apply key_Verify_foreign, (payload_foreign v None w HF E).
  - unfold u_UnversionedVerify. destruct (u_Base64WSDecode sv) as [b|]; [|discriminate]. cbn [bind].
    induction (ks_vkeys ks) as [|[o k] l IH]; [discriminate|]. cbn [u_verify_any]. pose proof (key_Verify_foreign k v b HF) as HN.
    destruct (u_key_Verify k v b) as [[|]|]; cbn [bind]; [contradiction HN; reflexivity | exact IH | discriminate].
Qed.
Print Assumptions C88_foreign.

(** *** Attached signatures *)
Definition is_bytes (v : pystr) : bool := match v with B _ => true | U _ => false end.

(** [blob] as a value of the kind of [v]. *)
Definition of_kind (v : pystr) (blob : str) : pystr := if is_bytes v then B blob else U (text_of_str blob).

(** What AttachedSign answers when the data or the nonce is a unicode text, given that the same bytes can be signed:
    the same signed data, but only when the data and the nonce with its length are ASCII and, for unicode data,
    header and signature are too; UnicodeDecodeError otherwise.  Never another answer. *)
Theorem C88_attached_sign_exactly : forall e ks v s nv n p blob, spells v s -> spells_opt nv n ->
  AttachedSign e ks s n None = Ok blob -> PackByteArray n = Ok p ->
  let fine := all_bytes_given v nv || asciib (s ++ p) && (is_bytes v || asciib blob) in
  u_AttachedSign e ks v nv None = (if fine then Ok (of_kind v blob) else Raise UnicodeError) /\
  (forall f, u_AttachedSign e ks v nv (Some f) = if fine then in_bytes (f blob) else Raise UnicodeError).
Proof.
  intros e ks v s nv n p blob HS HN HA EP fine.
  assert (M : u_AttachedSign e ks v nv None = if fine then Ok (of_kind v blob) else Raise UnicodeError).
  { unfold AttachedSign in HA. unfold u_AttachedSign. destruct (primary_key ks) as [k|] eqn:EK; [|discriminate]. cbn [bind] in *.
    destruct (key_header k) as [h|]; [|discriminate]. cbn [bind] in *. cbn [PackByteArray u_PackByteArray] in *. rewrite (spells_len v s HS).
    destruct (struct_pack_i (len s)) as [l|]; [|discriminate]. cbn [bind] in *.
    unfold InternalSign in HA. unfold u_InternalSign. rewrite EK in *. cbn [bind] in *. rewrite EP in HA. cbn [bind] in HA.
    destruct (key_Sign e k (s ++ p ++ VERSION_BYTE)) as [sg|] eqn:ES; [|discriminate]. cbn [bind apply_codec] in HA. injection HA as <-.
    assert (HP : payload s n = Ok (s ++ p ++ VERSION_BYTE)) by (unfold payload; rewrite EP; reflexivity).
    assert (EM : asciib (s ++ p ++ VERSION_BYTE) = asciib (s ++ p)) by (rewrite !asciib_app, version_ascii, andb_true_r; reflexivity).
    (* the payload *)
    assert (PAY : (exists w, u_payload v nv = Ok w /\ spells w (s ++ p ++ VERSION_BYTE) /\ (all_bytes_given v nv = false -> asciib (s ++ p) = true)) \/
                  (u_payload v nv = Raise UnicodeError /\ all_bytes_given v nv = false /\ asciib (s ++ p) = false)).
    { destruct (payload_spells v s nv n _ HS HN HP) as [(w & E & HW)|(E & A1 & A2)]; [|right; rewrite EM in A2; repeat split; assumption].
      left. exists w. split; [exact E|]. split; [exact HW|]. intros HB. rewrite <- EM. destruct HW as [->|[HW _]]; [|apply asciib_spec, HW].
      exfalso. unfold u_payload in E. destruct (u_PackByteArray nv) as [q|] eqn:EQ; [|discriminate]. cbn [bind] in E. destruct (u_add v q) as [x|] eqn:EX; [|discriminate]. cbn [bind] in E.
      apply add_bytes_inv in E as (x0 & y0 & -> & _ & _). apply add_bytes_inv in EX as (v0 & q0 & -> & -> & _). cbn [all_bytes_given] in HB.
      destruct nv as [[y|y]|]; try discriminate HB. cbn [u_PackByteArray] in EQ. destruct (struct_pack_i _) as [l'|]; [|discriminate]. cbn [bind] in EQ.
      apply add_bytes_inv in EQ as (? & ? & _ & EQ & _). discriminate EQ. }
    destruct HS as [->|[A ->]].
    - (* bytes *) cbn [u_add bind]. unfold fine, of_kind. cbn [is_bytes orb andb].
      destruct PAY as [(w & -> & HW & HB)|(-> & B1 & B2)]; cbn [bind].
      + rewrite (key_Sign_spells e k w _ HW), ES. cbn [bind u_add]. cbn [u_encode].
        replace (all_bytes_given (B s) nv || asciib (s ++ p) && true) with true; [rewrite <- !app_assoc; reflexivity|].
        destruct (all_bytes_given (B s) nv) eqn:EB; [reflexivity|]. rewrite (HB eq_refl). reflexivity.
      + rewrite B1, B2. reflexivity.
    - (* unicode *) assert (NB : all_bytes_given (U (text_of_str s)) nv = false) by reflexivity. unfold fine, of_kind. rewrite NB. cbn [is_bytes orb]. cbn [u_add]. rewrite !to_unicode_eq.
      assert (AS : asciib s = true) by (apply asciib_spec, A).
      rewrite !asciib_app, AS. destruct (asciib l) eqn:EL; cbn [bind]; [|rewrite ?andb_false_r, ?andb_false_l, ?andb_false_r; reflexivity].
      destruct (asciib h) eqn:EH; cbn [bind]; [|rewrite ?andb_false_r, ?andb_false_l, ?andb_false_r; reflexivity].
      destruct PAY as [(w & -> & HW & HB)|(-> & B1 & B2)]; cbn [bind].
      + specialize (HB NB). rewrite asciib_app, AS in HB. cbn [andb] in HB. rewrite HB. cbn [andb].
        rewrite (key_Sign_spells e k w _ HW), ES. cbn [bind u_add]. rewrite to_unicode_eq. destruct (asciib sg); [|reflexivity]. cbn [bind u_encode].
        rewrite !text_app, <- !app_assoc. reflexivity.
      + rewrite asciib_app, AS in B2. cbn [andb] in B2. rewrite B2. reflexivity. }
  split; [exact M|]. intros f.
  assert (C : u_AttachedSign e ks v nv (Some f) = let* x := u_AttachedSign e ks v nv None in u_encode (Some f) x).
  { unfold u_AttachedSign. destruct (primary_key ks) as [k|]; [|reflexivity]. cbn [bind]. destruct (key_header k); [|reflexivity]. cbn [bind].
    destruct (u_PackByteArray _); [|reflexivity]. cbn [bind]. destruct (u_add _ _); [|reflexivity]. cbn [bind]. destruct (u_InternalSign _ _ _ _); [|reflexivity]. cbn [bind].
    destruct (u_add _ _); reflexivity. }
  rewrite C, M. destruct fine eqn:EF; [|reflexivity]. cbn [bind]. unfold of_kind. destruct v as [x|x]; cbn [is_bytes u_encode as_bytes]; [reflexivity|].
  rewrite str_of_text_of_str; [reflexivity|]. apply asciib_spec. unfold fine in EF. cbn [all_bytes_given is_bytes orb] in EF. apply andb_true_iff in EF as [_ EF]. exact EF.
Qed.
Print Assumptions C88_attached_sign_exactly.

(** So an ASCII text whose bytes are signed is refused as unicode as soon as one byte of the header or the
    signature is over 127, with the Base64 encoder as without. *)
Theorem C88_attached_sign_refuted : forall e ks s n blob c encoder, ascii s -> AttachedSign e ks s n None = Ok blob -> In c blob -> 128 <= ord c ->
  u_AttachedSign e ks (U (text_of_str s)) (option_map B n) encoder = Raise UnicodeError.
Proof.
  intros e ks s n blob c encoder A HA HI HC.
  assert (EP : exists p, PackByteArray n = Ok p).
  { unfold AttachedSign, InternalSign in HA. destruct (primary_key ks); [|discriminate]. cbn [bind] in HA. destruct (key_header _); [|discriminate]. cbn [bind] in HA.
    destruct (PackByteArray (Some s)); [|discriminate]. cbn [bind] in HA. destruct (PackByteArray n) as [p|]; [exists p; reflexivity | discriminate]. }
  destruct EP as [p EP].
  destruct (C88_attached_sign_exactly e ks (U (text_of_str s)) s (option_map B n) n p blob (or_intror (conj A eq_refl))
    ltac:(destruct n; [left; reflexivity | exact I]) HA EP) as [H1 H2].
  assert (AB : asciib blob = false) by (apply asciib_false; exists c; split; assumption).
  rewrite AB in H1, H2. cbn [all_bytes_given is_bytes orb] in H1, H2. rewrite andb_false_r in H1, H2.
  destruct encoder as [f|]; [apply H2 | exact H1].
Qed.
Print Assumptions C88_attached_sign_refuted.

(** AttachedVerify gives the answer it gives for the same bytes, or, when the nonce is a unicode text, raises
    UnicodeDecodeError. *)
Theorem C88_attached_verify : forall ks sv sig nv n, spells_b64 sv sig -> spells_opt nv n ->
  u_AttachedVerify ks sv nv = AttachedVerify ks sig n b64_decoder \/
  (u_AttachedVerify ks sv nv = Raise UnicodeError /\ exists t, nv = Some (U t)).
Proof.
  intros ks sv sig nv n HS HN. unfold u_AttachedVerify, AttachedVerify. rewrite (decode_spells sv sig HS). cbn [apply_codec b64_decoder].
  destruct (Base64WSDecode sig) as [b|]; [|left; reflexivity]. cbn [bind]. destruct (UnpackByteArray b HEADER_SIZE) as [[data o]|]; [|left; reflexivity]. cbn [bind].
  unfold u_InternalVerify, InternalVerify. destruct (ParseHeader ks _) as [k|]; [|left; reflexivity]. cbn [bind].
  destruct (PackByteArray n) as [p|ex] eqn:EP.
  - assert (HP : payload data n = Ok (data ++ p ++ VERSION_BYTE)) by (unfold payload; rewrite EP; reflexivity).
    destruct (payload_spells (B data) data nv n _ (or_introl eq_refl) HN HP) as [(w & -> & HW)|(-> & A1 & A2)]; cbn [bind].
    + left. rewrite (key_Verify_spells k w _ _ HW). reflexivity.
    + right. split; [reflexivity|]. destruct nv as [[y|y]|]; try discriminate A1. exists y. reflexivity.
  - left. cbn [bind]. unfold u_payload. destruct nv as [nv|], n as [n|]; cbn [spells_opt] in HN; try contradiction; [|discriminate EP].
    cbn [u_PackByteArray PackByteArray] in *. rewrite (spells_len nv n HN). destruct (struct_pack_i (len n)); [discriminate EP|]. cbn [bind] in *. injection EP as ->. reflexivity.
Qed.
Print Assumptions C88_attached_verify.

(** It does raise for every signed text with a byte over 127, though the signature is good and the nonce right. *)
Theorem C88_nonce_refuted : forall ks sv sig t n data c, spells_b64 sv sig -> spells (U t) n ->
  AttachedVerify ks sig (Some n) b64_decoder = Ok (Some data) -> In c data -> 128 <= ord c ->
  u_AttachedVerify ks sv (Some (U t)) = Raise UnicodeError.
Proof.
  intros ks sv sig t n data c HS HN HA HI HC. unfold AttachedVerify in HA. unfold u_AttachedVerify. rewrite (decode_spells sv sig HS).
  cbn [apply_codec b64_decoder] in HA. destruct (Base64WSDecode sig) as [b|]; [|discriminate]. cbn [bind] in *.
  destruct (UnpackByteArray b HEADER_SIZE) as [[data' o]|]; [|discriminate]. cbn [bind] in *. unfold u_InternalVerify. unfold InternalVerify in HA.
  destruct (ParseHeader ks _) as [k|]; [|discriminate]. cbn [bind] in *. cbn [PackByteArray] in HA. unfold u_payload. cbn [u_PackByteArray]. rewrite (spells_len _ n HN).
  destruct (struct_pack_i (len n)) as [l|]; [|discriminate]. cbn [bind] in *. destruct (key_Verify k _ _) as [[|]|]; try discriminate HA. cbn [bind] in HA. injection HA as ->.
  cbn [u_add]. rewrite to_unicode_eq. destruct (asciib l); [|reflexivity]. cbn [bind u_add]. rewrite to_unicode_eq.
  replace (asciib data) with false by (symmetry; apply asciib_false; exists c; split; assumption). reflexivity.
Qed.
Print Assumptions C88_nonce_refuted.

(** A nonce with other characters is never accepted. *)
Theorem C88_foreign_nonce : forall e ks v encoder sv nv, foreign nv ->
  (forall r, u_AttachedSign e ks v (Some nv) encoder <> Ok r) /\ (forall d, u_AttachedVerify ks sv (Some nv) <> Ok (Some d)).
Proof.
  intros e ks v encoder sv nv HF.
  assert (HP : forall v w, u_payload v (Some nv) = Ok w -> foreign w).
  { intros v0 w H. unfold u_payload in H. cbn [u_PackByteArray] in H. destruct (struct_pack_i _); [|discriminate]. cbn [bind] in H.
    destruct (u_add _ nv) as [x|] eqn:E; [|discriminate]. cbn [bind] in H. destruct (u_add v0 x) as [y|] eqn:E2; [|discriminate]. cbn [bind] in H.
    apply (add_foreign_l y _ _ (add_foreign_r _ _ _ (add_foreign_r _ _ _ HF E) E2) H). }
  split.
  - intros r. unfold u_AttachedSign. destruct (primary_key ks) as [k|] eqn:EK; [|discriminate]. cbn [bind]. destruct (key_header k); [|discriminate]. cbn [bind].
    destruct (u_PackByteArray _); [|discriminate]. cbn [bind]. destruct (u_add _ _); [|discriminate]. cbn [bind]. unfold u_InternalSign. rewrite EK. cbn [bind].
    destruct (u_payload v (Some nv)) as [w|] eqn:E; [|discriminate]. cbn [bind]. destruct (u_key_Sign e k w) as [s0|] eqn:ES; [|discriminate].
    exfalso. apply (key_Sign_foreign e k w s0 (HP _ _ E) ES).
  - intros d. unfold u_AttachedVerify. destruct (u_Base64WSDecode sv) as [b|]; [|discriminate]. cbn [bind]. destruct (UnpackByteArray b HEADER_SIZE) as [[data o]|]; [|discriminate]. cbn [bind].
    unfold u_InternalVerify. destruct (ParseHeader ks _) as [k|]; [|discriminate]. cbn [bind]. destruct (u_payload (B data) (Some nv)) as [w|] eqn:E; [|discriminate]. cbn [bind].
    pose proof (key_Verify_foreign k w (slice_from b o) (HP _ _ E)) as HV. destruct (u_key_Verify k w _) as [[|]|]; cbn [bind]; [contradiction HV; reflexivity | discriminate | discriminate].
Qed.
Print Assumptions C88_foreign_nonce.

(** ** Streams *)

(** The two writers hold the same, and the text waiting in one spells the bytes waiting in the other. *)
Definition alike (u : u_esw) (w : esw) : Prop :=
  uw_cipher u = ew_cipher w /\ uw_hmac u = ew_hmac w /\ uw_closed u = ew_closed w /\ uw_sink u = ew_sink w /\ spells (uw_data u) (ew_data w).

Lemma slice_spells v s n : spells v s -> spells (u_slice_to v n) (slice_to s n) /\ spells (u_slice_from v n) (slice_from s n).
Proof.
  intros [->|[A ->]]; cbn [u_slice_to u_slice_from]; [split; left; reflexivity|].
  assert (T : forall a b, slice (text_of_str s) a b = text_of_str (slice s a b)).
  { intros a b. unfold slice. rewrite len_text. unfold text_of_str. rewrite skipn_map, firstn_map. reflexivity. }
  unfold slice_to, slice_from. rewrite len_text, !T. fold (slice_to s n). fold (slice_from s n).
  rewrite <- (slice_to_from s n) in A. apply ascii_app in A as [A1 A2]. split; right; split; assumption || reflexivity.
Qed.

Lemma slice_parts v n a b : spells (u_slice_to v n) a -> spells (u_slice_from v n) b -> spells v (a ++ b).
Proof.
  destruct v as [s|t]; cbn [u_slice_to u_slice_from]; intros H1 H2.
  - destruct H1 as [H1|[_ H1]]; [|discriminate]. destruct H2 as [H2|[_ H2]]; [|discriminate]. injection H1 as <-. injection H2 as <-. left. rewrite slice_to_from. reflexivity.
  - destruct H1 as [H1|[A1 H1]]; [discriminate|]. destruct H2 as [H2|[A2 H2]]; [discriminate|]. injection H1 as H1. injection H2 as H2. right.
    split; [apply ascii_app; split; assumption|]. rewrite text_app, <- H1, <- H2, slice_to_from. reflexivity.
Qed.

Lemma Pad_parts v w : u_Pad v = Ok w -> forall x, as_bytes w = Ok x -> exists s, spells v s.
Proof. unfold u_Pad. intros H x HX. destruct (add_parts _ _ _ _ H (bytes_spells _ _ HX)) as (s & _ & HS & _). exists s. exact HS. Qed.

(** One write on both. *)
Lemma write_alike u w d s : alike u w -> spells d s ->
  (exists u' w' r, uw_write u d = (u', r) /\ ew_write w s = (w', r) /\ alike u' w') \/
  (uw_write u d = (u, Raise UnicodeError) /\ asciib (ew_data w ++ s) = false).
Proof.
  intros (C1 & C2 & C3 & C4 & C5) HS. unfold uw_write, ew_write. rewrite C3. destruct (ew_closed w) eqn:EC.
  - left. eexists _, _, _. split; [reflexivity|]. split; [reflexivity|]. unfold alike. rewrite C3, EC. repeat split; try assumption; congruence.
  - destruct (add_spells _ _ _ _ _ C5 HS eq_refl) as [(v & -> & HV)|[-> HA]]; [|right; split; [reflexivity | exact HA]]. left.
    rewrite (spells_len v _ HV). cbn [set_data ew_data]. destruct (slice_spells v _ (NoPadBufferSize (len (ew_data w ++ s))) HV) as [HT HF].
    destruct (_ <=? _).
    + unfold u_WriteEncrypted, WriteEncrypted. cbn [bind uw_set set_data uw_cipher uw_hmac uw_data uw_closed uw_sink ew_cipher ew_hmac ew_data ew_closed ew_sink]. rewrite (spells_bytes _ _ HT). cbn [bind]. rewrite C1.
      destruct (cipher_encrypt (ew_cipher w) _) as [[out c]|].
      * eexists _, _, _. split; [reflexivity|]. split; [reflexivity|]. unfold alike. cbn. rewrite C2, C4, C3. repeat split; try assumption; try reflexivity; congruence.
      * eexists _, _, _. split; [reflexivity|]. split; [reflexivity|]. unfold alike. cbn. rewrite C3. repeat split; try assumption; congruence.
    + eexists _, _, _. split; [reflexivity|]. split; [reflexivity|]. unfold alike. cbn. rewrite C3. repeat split; try assumption; try congruence. apply (slice_spells v _ 0 HV).
Qed.

Lemma flush_alike u w : alike u w -> exists u' w' r, uw_flush u = (u', r) /\ ew_flush w = (w', r) /\ alike u' w'.
Proof.
  intros (C1 & C2 & C3 & C4 & C5). unfold uw_flush, ew_flush. rewrite C3. destruct (ew_closed w) eqn:EC.
  - eexists _, _, _. split; [reflexivity|]. split; [reflexivity|]. unfold alike. rewrite C3, EC. repeat split; try assumption; congruence.
  - unfold u_WriteEncrypted, WriteEncrypted. destruct (Pad_spells _ _ C5) as (v & -> & HV). cbn [bind]. rewrite (spells_bytes _ _ HV). cbn [bind]. rewrite C1.
    destruct (cipher_encrypt (ew_cipher w) _) as [[out c]|].
    + eexists _, _, _. split; [reflexivity|]. split; [reflexivity|]. unfold alike. cbn. rewrite C2, C4, C3. repeat split; try assumption; try reflexivity; congruence.
    + eexists _, _, _. split; [reflexivity|]. split; [reflexivity|]. unfold alike. rewrite C3, EC. repeat split; try assumption; congruence.
Qed.

(** If all went well, all text was ASCII. *)
Lemma writes_parts : forall ds u u1 rs u2, uw_writes u ds = (u1, rs) -> (forall r, In r rs -> r = Ok tt) -> uw_flush u1 = (u2, Ok tt) ->
  (exists s, spells (uw_data u) s) /\ exists ss, Forall2 spells ds ss.
Proof.
  induction ds as [|d ds IH]; intros u u1 rs u2 HW HR HF; cbn [uw_writes] in HW.
  - injection HW as <- _. split; [|exists []; constructor]. unfold uw_flush in HF. destruct (uw_closed u); [discriminate|]. unfold u_WriteEncrypted in HF.
    destruct (u_Pad (uw_data u)) as [v|] eqn:EP; [|discriminate]. cbn [bind] in HF. destruct (as_bytes v) as [x|] eqn:EX; [|discriminate]. apply (Pad_parts _ _ EP x EX).
  - destruct (uw_write u d) as [u0 r] eqn:EW. destruct (uw_writes u0 ds) as [u3 rs3] eqn:ES. injection HW as -> <-.
    assert (r = Ok tt) as -> by (apply HR; left; reflexivity).
    destruct (IH u0 u1 rs3 u2 ES (fun r H => HR r (or_intror H)) HF) as [[s HS] [ss HSS]].
    unfold uw_write in EW. destruct (uw_closed u); [discriminate|]. destruct (u_add (uw_data u) d) as [v|] eqn:EA; [|discriminate].
    assert (exists x, spells v x) as [x HX].
    { destruct (_ <=? _).
      - unfold u_WriteEncrypted in EW. cbn [bind uw_set uw_cipher uw_data] in EW. destruct (as_bytes (u_slice_to v _)) as [y|] eqn:EY; [|discriminate]. cbn [bind] in EW.
        destruct (cipher_encrypt _ y) as [[out c]|]; [|discriminate]. injection EW as <-. cbn in HS. eexists. apply (slice_parts v _ _ _ (bytes_spells _ _ EY) HS).
      - injection EW as <-. cbn [uw_set uw_data] in HS. exists s. destruct v as [y|y]; cbn [u_slice_from] in HS; rewrite slice_from_0 in HS; exact HS. }
    destruct (add_parts _ _ _ _ EA HX) as (a & b & HA & HB & _). split; [exists a; exact HA|]. exists (b :: ss). constructor; assumption.
Qed.

Lemma writes_alike : forall ds ss, Forall2 spells ds ss -> forall u w u1 rs, alike u w -> uw_writes u ds = (u1, rs) -> (forall r, In r rs -> r = Ok tt) ->
  exists w1, wrun w (map CWrite ss) = (w1, rs) /\ alike u1 w1.
Proof.
  induction 1 as [|d s ds ss HS HD IH]; intros u w u1 rs HA HW HR; cbn [uw_writes] in HW.
  - injection HW as <- <-. exists w. split; [reflexivity | exact HA].
  - destruct (write_alike u w d s HA HS) as [(u0 & w0 & r & E1 & E2 & HA0)|[E _]].
    + rewrite E1 in HW. destruct (uw_writes u0 ds) as [u3 rs3] eqn:ES. injection HW as -> <-.
      destruct (IH u0 w0 u1 rs3 HA0 ES (fun r H => HR r (or_intror H))) as (w1 & E3 & HA1). exists w1. split; [|exact HA1]. cbn [map wrun wstep]. rewrite E2, E3. reflexivity.
    + rewrite E in HW. destruct (uw_writes u ds). injection HW as _ <-. discriminate (HR (Raise UnicodeError) (or_introl eq_refl)).
Qed.

(** A stream to which text was written, all writes and the final flush without an exception, is the stream of the
    bytes the texts spell: nothing was lost, and none of the texts had other characters. *)
Theorem C88_stream : forall w ds u rs u', uw_writes (uw_of w) ds = (u, rs) -> (forall r, In r rs -> r = Ok tt) -> uw_flush u = (u', Ok tt) ->
  exists ss w', Forall2 spells ds ss /\ wrun w (map CWrite ss ++ [CFlush]) = (w', rs ++ [Ok tt]) /\ uw_sink u' = ew_sink w'.
Proof.
  intros w ds u rs u' HW HR HF. destruct (writes_parts ds _ u rs u' HW HR HF) as [_ [ss HSS]].
  destruct (writes_alike ds ss HSS (uw_of w) w u rs) as (w1 & E & HA); [repeat split; left; reflexivity | exact HW | exact HR|].
  destruct (flush_alike u w1 HA) as (u2 & w2 & r & E1 & E2 & HA2). rewrite HF in E1. injection E1 as <- <-.
  exists ss, w2. split; [exact HSS|]. split; [|apply HA2]. clear HW HR HSS HF HA. revert w rs E. induction (map CWrite ss) as [|c cs IH]; intros w rs E.
  - injection E as -> <-. cbn [app wrun wstep]. rewrite E2. reflexivity.
  - cbn [app wrun] in *. destruct (wstep w c) as [w0 r0]. destruct (wrun w0 cs) as [w3 rs3] eqn:E3. injection E as -> <-. rewrite (IH w0 rs3 E3). reflexivity.
Qed.
Print Assumptions C88_stream.

(** Texts of ASCII characters only, given as either, are written like their bytes, call by call. *)
Theorem C88_stream_ascii : forall w ds ss, Forall2 spells ds ss -> Forall ascii ss -> ascii (ew_data w) ->
  snd (uw_writes (uw_of w) ds) = snd (wrun w (map CWrite ss)) /\
  uw_sink (fst (uw_writes (uw_of w) ds)) = ew_sink (fst (wrun w (map CWrite ss))) /\
  snd (uw_flush (fst (uw_writes (uw_of w) ds))) = snd (ew_flush (fst (wrun w (map CWrite ss)))).
Proof.
  intros w ds ss H HA HD.
  assert (G : forall u w, alike u w -> ascii (ew_data w) -> exists u1 w1 rs, uw_writes u ds = (u1, rs) /\ wrun w (map CWrite ss) = (w1, rs) /\ alike u1 w1).
  { clear w HD. induction H as [|d s ds ss HS HF IH]; intros u w HU HD.
    - exists u, w, []. repeat split; apply HU.
    - inversion HA as [|? ? A1 A2]; subst. destruct (write_alike u w d s HU HS) as [(u0 & w0 & r & E1 & E2 & HA0)|[_ E]].
      + assert (HD0 : ascii (ew_data w0)).
        { unfold ew_write in E2. destruct (ew_closed w); [injection E2 as <- _; exact HD|]. cbn [set_data ew_data] in E2.
          assert (AA : ascii (ew_data w ++ s)) by (apply ascii_app; split; assumption).
          assert (AS : forall n, ascii (slice_from (ew_data w ++ s) n)) by (intros n; rewrite <- (slice_to_from (ew_data w ++ s) n) in AA; apply ascii_app in AA; apply AA).
          destruct (_ <=? _); [|injection E2 as <- _; apply AS]. unfold WriteEncrypted in E2. cbn [set_data ew_data ew_cipher ew_hmac ew_closed ew_sink] in E2.
          destruct (cipher_encrypt _ _) as [[out c]|]; injection E2 as <- _; [apply AS | exact AA]. }
        destruct (IH A2 u0 w0 HA0 HD0) as (u1 & w1 & rs & E3 & E4 & HA1). exists u1, w1, (r :: rs). cbn [uw_writes map wrun wstep]. rewrite E1, E2, E3, E4. repeat split; apply HA1.
      + exfalso. assert (asciib (ew_data w ++ s) = true); [|congruence]. apply asciib_spec, ascii_app. split; assumption. }
  destruct (G (uw_of w) w) as (u1 & w1 & rs & -> & -> & HA1); [repeat split; left; reflexivity | exact HD|]. cbn [fst snd]. split; [reflexivity|]. split; [apply HA1|].
  destruct (flush_alike u1 w1 HA1) as (u2 & w2 & r & -> & -> & _). reflexivity.
Qed.
Print Assumptions C88_stream_ascii.

(** The bytes of the calls that were not refused. *)
Definition refused (r : res unit) : bool := match r with Raise UnicodeError => true | _ => false end.
Definition taken {A} (l : list A) (rs : list (res unit)) : list A := map fst (filter (fun p => negb (refused (snd p))) (combine l rs)).

Lemma ew_write_unicode w d : refused (snd (ew_write w d)) = false.
Proof.
  unfold ew_write. destruct (ew_closed w); [reflexivity|]. destruct (_ <=? _); [|reflexivity]. unfold WriteEncrypted.
  destruct (cipher_encrypt _ _) as [[out c]|x] eqn:E; [reflexivity|]. unfold cipher_encrypt in E. destruct (_ =? _); [|injection E as <-; reflexivity].
  destruct (cbc_enc _ _ _ _). discriminate E.
Qed.

(** When byte strings with bytes over 127 and texts are mixed, the two cannot be joined while the former wait in the
    buffer: such a write is refused as a whole, with no effect, and the stream is that of the other writes. *)
Theorem C88_stream_mixed : forall w ds ss u rs, Forall2 spells ds ss -> uw_writes (uw_of w) ds = (u, rs) ->
  exists w', wrun w (map CWrite (taken ss rs)) = (w', filter (fun r => negb (refused r)) rs) /\ uw_sink u = ew_sink w' /\
  uw_sink (fst (uw_flush u)) = ew_sink (fst (ew_flush w')) /\ snd (uw_flush u) = snd (ew_flush w').
Proof.
  intros w ds ss u rs H HW.
  assert (G : forall u0 w u rs, alike u0 w -> uw_writes u0 ds = (u, rs) -> exists w', wrun w (map CWrite (taken ss rs)) = (w', filter (fun r => negb (refused r)) rs) /\ alike u w').
  { clear w u rs HW. induction H as [|d s ds ss HS HF IH]; intros u0 w u rs HA HW; cbn [uw_writes] in HW.
    - injection HW as <- <-. exists w. split; [reflexivity | exact HA].
    - destruct (write_alike u0 w d s HA HS) as [(u1 & w1 & r & E1 & E2 & HA1)|[E _]].
      + rewrite E1 in HW. destruct (uw_writes u1 ds) as [u2 rs2] eqn:E3. injection HW as -> <-. destruct (IH u1 w1 u rs2 HA1 E3) as (w' & E4 & HA').
        exists w'. split; [|exact HA']. pose proof (ew_write_unicode w s) as HR. rewrite E2 in HR. cbn [snd] in HR. unfold taken. cbn [combine filter snd]. rewrite HR. cbn [negb map fst wrun wstep].
        rewrite E2. unfold taken in E4. rewrite E4. reflexivity.
      + rewrite E in HW. destruct (uw_writes u0 ds) as [u2 rs2] eqn:E3. injection HW as -> <-. exact (IH u0 w u rs2 HA E3). }
  destruct (G (uw_of w) w u rs) as (w' & E & HA); [repeat split; left; reflexivity | exact HW|]. exists w'. split; [exact E|]. split; [apply HA|].
  destruct (flush_alike u w' HA) as (u2 & w2 & r & -> & -> & HA2). split; [apply HA2 | reflexivity].
Qed.
Print Assumptions C88_stream_mixed.

(** But a character that cannot be encrypted is taken by write without complaint while the block is not full: the
    error comes later, from flush, and nothing of the text has then been written. *)
Theorem C88_stream_late_refuted : forall w c, ew_closed w = false -> ew_data w = [] -> (128 <= c)%N ->
  exists u u', uw_write (uw_of w) (U [c]) = (u, Ok tt) /\ uw_flush u = (u', Raise UnicodeError) /\ uw_sink u' = ew_sink w.
Proof.
  intros w c HC HD H. unfold uw_write, uw_of. rewrite HD. cbn [uw_closed uw_data u_add]. rewrite HC. rewrite to_unicode_eq. cbn [asciib forallb bind]. 
  change (u_len (U (text_of_str [] ++ [c]))) with 1. change (NoPadBufferSize 1 <=? 1) with false. cbv iota. eexists _, _. split; [reflexivity|].
  unfold uw_flush. cbn [uw_set uw_closed]. unfold u_WriteEncrypted. cbn [uw_set uw_data uw_cipher].
  destruct (Pad_foreign (u_slice_from (U (text_of_str [] ++ [c])) 0)) as (v & E & HV).
  { exists [c]. split; [reflexivity|]. exists c. split; [left; reflexivity | exact H]. }
  rewrite E. cbn [bind]. rewrite (foreign_bytes v HV). cbn [bind]. split; reflexivity.
Qed.
Print Assumptions C88_stream_late_refuted.

(** ** Cases *)
Definition uni (s : string) : pystr := U (text_of_str (bs s)).
Lemma uni_spells s : asciib (bs s) = true -> spells (uni s) (bs s).
Proof. intros H. right. split; [apply asciib_spec, H | reflexivity]. Qed.

Lemma uni_b64 s : forallb (fun c => (ord c <? 128) && negb (ord c =? 11) && negb (ord c =? 12) && negb ((28 <=? ord c) && (ord c <=? 30))) s = true ->
  spells_b64 (U (text_of_str s)) s.
Proof. intros H. right. split; [|reflexivity]. apply Forall_forall. rewrite forallb_forall in H. intros c HI. specialize (H c HI). lia. Qed.

(** A key set for each theorem, a text that spells bytes and one that does not. *)
Example C88_encrypt_case : e_lib zero_env = PyCrypto /\ spells (uni "attack at dawn") (bs "attack at dawn") /\ foreign (U [99%N; 97%N; 102%N; 233%N]) /\
  exists a kb c, primary_key aes_set = Ok (KAes a) /\ aes_bytes a = Ok kb /\ AES_new kb (RandBytes (e_tape zero_env) 16) = Ok c.
Proof.
  split; [reflexivity|]. split; [apply uni_spells; reflexivity|]. split; [eexists; split; [reflexivity|]; exists 233%N; split; [do 3 right; left; reflexivity | lia]|].
  eexists _, _, _. split; [reflexivity|]. split; [vm_compute; reflexivity|]. reflexivity.
Qed.

Example C88_rsa_case : primary_key demo_rsa_ks = Ok (KRsaPriv demo_rsa) /\ num_bytes (rn_n (rp_key (rs_pub demo_rsa))) = 64 /\
  (exists ct, Encrypt zero_env demo_rsa_ks (bs "x") None = Ok ct) /\ u_Encrypt (fun _ => Raise ValueError) zero_env demo_rsa_ks (uni "x") None = Raise UnicodeError.
Proof.
  split; [reflexivity|]. split; [vm_compute; reflexivity|]. split; [eexists; vm_compute; reflexivity|].
  unfold uni. rewrite (C88_rsa_encrypt_refuted _ _ demo_rsa_ks (KRsaPriv demo_rsa) (rs_pub demo_rsa)); [|reflexivity | right; exists demo_rsa; split; reflexivity].
  replace (num_bytes (rn_n (rp_key (rs_pub demo_rsa)))) with 64 by (vm_compute; reflexivity). reflexivity.
Qed.

Example C88_sign_case : exists sig, Sign zero_env hmac_set (bs "hello") b64_encoder = Ok sig /\ spells_b64 (U (text_of_str sig)) sig /\
  Verify hmac_set (bs "hello") sig b64_decoder = Ok true.
Proof.
  eexists. split; [vm_compute; reflexivity|]. split; [apply uni_b64; vm_compute; reflexivity|]. vm_compute. reflexivity.
Qed.

Example C88_attached_case :
  match AttachedSign zero_env hmac_set (bs "hello") None None with Ok blob => asciib blob = false | _ => False end /\
  match AttachedSign zero_env hmac_set [xe9] (Some (bs "abc")) b64_encoder with Ok sig =>
    AttachedVerify hmac_set sig (Some (bs "abc")) b64_decoder = Ok (Some [xe9]) | _ => False end /\ spells (uni "abc") (bs "abc") /\ 128 <= ord xe9.
Proof. split; [vm_compute; reflexivity|]. split; [vm_compute; reflexivity|]. split; [apply uni_spells; reflexivity | vm_compute; discriminate]. Qed.

Example C88_stream_case : exists w, CreateEncryptingStreamWriter aes_set (e_tape zero_env) true = Ok w /\ ew_closed w = false /\ ew_data w = [] /\
  Forall2 spells [uni "ab"; B (bs "c"); uni ""] [bs "ab"; bs "c"; []] /\ Forall ascii [bs "ab"; bs "c"; []] /\
  snd (uw_writes (uw_of w) [uni "ab"; B (bs "c"); uni ""]) = [Ok tt; Ok tt; Ok tt].
Proof.
  assert (E : exists w, CreateEncryptingStreamWriter aes_set (e_tape zero_env) true = Ok w /\ ew_closed w = false /\ ew_data w = []).
  { destruct aes_case as (k & kb & hb & A & _). destruct (stream_writer zero_env aes_set k kb hb true A) as (hdr & w & _ & EW & AT).
    exists w. split; [exact EW|]. destruct AT as [A1 _ (q & body & EQ & _)]. split; [exact A1|]. symmetry in EQ. apply app_eq_nil in EQ. apply EQ. }
  destruct E as (w & E & EC & ED). exists w. split; [exact E|]. split; [exact EC|]. split; [exact ED|].
  assert (F2 : Forall2 spells [uni "ab"; B (bs "c"); uni ""] [bs "ab"; bs "c"; []]) by
    (apply Forall2_cons; [apply uni_spells; reflexivity|]; apply Forall2_cons; [left; reflexivity|]; apply Forall2_cons; [apply (uni_spells ""); reflexivity|]; apply Forall2_nil).
  assert (FA : Forall ascii [bs "ab"; bs "c"; []]) by (apply Forall_cons; [apply asciib_spec; reflexivity|]; apply Forall_cons; [apply asciib_spec; reflexivity|]; apply Forall_cons; [apply asciib_spec; reflexivity|]; apply Forall_nil).
  split; [exact F2|]. split; [exact FA|].
  destruct (C88_stream_ascii w _ _ F2 FA) as [H _]; [rewrite ED; constructor|]. rewrite H. destruct w as [c h d cl o]. cbn in EC, ED. subst. reflexivity.
Qed.

Example C88_mixed_case : forall w, ew_closed w = false -> ew_data w = [] ->
  snd (uw_writes (uw_of w) [B [xe9]; uni "a"; B (bs "b")]) = [Ok tt; Raise UnicodeError; Ok tt] /\
  taken [[xe9]; bs "a"; bs "b"] [Ok tt; Raise UnicodeError; Ok tt] = [[xe9]; bs "b"].
Proof. intros [c h d cl o] EC ED. cbn in EC, ED. subst. split; reflexivity. Qed.
