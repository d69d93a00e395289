(** * Props_Py3b: C59, which exceptions a program sees under Python 3. *)
From Coq Require Import Strings.String.
From Coq Require Import List ZArith NArith Bool Lia ZifyBool ZifyNat ZifyN.
From Coq.Init Require Import Byte.
From Verif Require Import PyBase PyFacts Base64 Sha1 Util UtilFacts Json JsonFacts KeyInfo SymKeys AsymKeys Keys KeysFacts KeyData Keyczar Py3 Props_Keyset Props_Py3.
Import ListNotations.
Local Open Scope Z_scope.

(** ** Sets that are fine under Python 2 *)

Lemma mapM_app_ok {A B} (f : A -> res B) l1 l2 r1 r2 : mapM f l1 = Ok r1 -> mapM f l2 = Ok r2 -> mapM f (l1 ++ l2) = Ok (r1 ++ r2).
Proof.
  intros E1 E2. revert r1 E1. induction l1 as [|x l1 IH]; intros r1 E1; cbn [mapM app] in *; [apply Ok_inj in E1 as <-; exact E2|].
  destruct (f x) as [y|]; [|discriminate]. cbn [bind] in *. destruct (mapM f l1) as [ys|]; [|discriminate]. cbn [bind] in E1. apply Ok_inj in E1 as <-. rewrite (IH ys eq_refl). reflexivity.
Qed.
Lemma mapM_len {A B} (f : A -> res B) l r : mapM f l = Ok r -> len r = len l.
Proof.
  revert r. induction l as [|x l IH]; intros r E; cbn [mapM] in E; [apply Ok_inj in E as <-; reflexivity|].
  destruct (f x) as [y|]; [|discriminate]. cbn [bind] in *. destruct (mapM f l) as [ys|]; [|discriminate]. apply Ok_inj in E as <-. rewrite !len_cons, (IH ys eq_refl). reflexivity.
Qed.

(** Decoding a text of a key file works as under Python 2, and gives bytes. *)
Lemma decode3 t b : Base64WSDecode_u t = Ok b -> Base64WSDecode3 (PStr t) = Ok (PBytes b).
Proof.
  unfold Base64WSDecode_u, Base64WSDecode3. set (u := filter _ (filter _ t)). destruct (str_of_text u) as [s|] eqn:E; [|discriminate]. cbn [bind].
  unfold decode_stripped, decode_stripped3. rewrite <- (mapM_len _ _ _ E). cbv zeta.
  destruct (len s mod 4 =? 1); [discriminate|]. intros H.
  assert (ET : str_of_text (if len s mod 4 =? 2 then u ++ [61%N; 61%N] else if len s mod 4 =? 3 then u ++ [61%N] else u) =
    Ok (if len s mod 4 =? 2 then s ++ ["="%byte; "="%byte] else if len s mod 4 =? 3 then s ++ ["="%byte] else s)).
  { destruct (len s mod 4 =? 2); [apply mapM_app_ok; [exact E | reflexivity]|]. destruct (len s mod 4 =? 3); [apply mapM_app_ok; [exact E | reflexivity] | exact E]. }
  unfold urlsafe_b64decode. rewrite ET. destruct (a2b_base64 _) as [x|e]; [apply Ok_inj in H as ->; reflexivity | destruct e; discriminate].
Qed.

Lemma member_str j name s : get_str j name = Ok s -> member j name = Ok (PStr s).
Proof. unfold get_str, member. destruct (get j name) as [[]|]; cbn [bind]; try discriminate. intros H. apply Ok_inj in H as ->. reflexivity. Qed.
Lemma get_b64_same j name b : get_b64 j name = Ok b -> get_b64_3 j name = Ok (PBytes b).
Proof.
  unfold get_b64, get_b64_3. destruct (get_str j name) as [s|] eqn:E; [|discriminate]. cbn [bind]. rewrite (member_str _ _ _ E). cbn [bind]. apply decode3.
Qed.
Lemma get_int_get j name n : get_int j name = Ok n -> exists w, get j name = Ok w.
Proof. unfold get_int. destruct (get j name) as [w|]; [eauto | discriminate]. Qed.

(** What happens to the numbers of a public or private key: [ord] of an element of bytes fails, and if there is no element at all
    PyCrypto is called, and then [lstrip] fails. *)
Definition type_error_or (ctor : constructor3) {A} (r : res A) : Prop := r = Raise TypeError \/ exists nums e, ctor nums = Raise e /\ r = Raise (match e with KeyError => KeyczarError | _ => e end).

Lemma longs l : mapM BytesToLong3 (map PBytes l) = Raise TypeError \/ Forall (fun b => b = []) l /\ exists nums, mapM BytesToLong3 (map PBytes l) = Ok nums.
Proof.
  induction l as [|b l IH]; cbn [map mapM]; [right; split; [constructor | eexists; reflexivity]|].
  destruct b as [|x b]; cbn [BytesToLong3 bind]; [|left; reflexivity]. destruct IH as [->|(F & nums & ->)]; [left; reflexivity | right; split; [constructor; [reflexivity | exact F] | eexists; reflexivity]].
Qed.

Lemma dsapub_read3 ctor j p q g y size : get_b64 j "y" = Ok y -> get_b64 j "p" = Ok p -> get_b64 j "g" = Ok g -> get_b64 j "q" = Ok q -> get_int j "size" = Ok size ->
  DsaPub_Read3 ctor j = Raise TypeError \/ (exists nums e, ctor nums = Raise e /\ DsaPub_Read3 ctor j = Raise e) \/ DsaPub_Read3 ctor j = Ok (PBytes p, PBytes q, PBytes g, PBytes y).
Proof.
  intros E1 E2 E3 E4 E5. unfold DsaPub_Read3. rewrite (get_b64_same _ _ _ E1), (get_b64_same _ _ _ E2), (get_b64_same _ _ _ E3), (get_b64_same _ _ _ E4). cbn [bind].
  change [PBytes y; PBytes g; PBytes p; PBytes q] with (map PBytes [y; g; p; q]). destruct (longs [y; g; p; q]) as [->|(_ & nums & ->)]; [left; reflexivity|]. cbn [bind].
  destruct (ctor nums) as [u|e] eqn:E; cbn [bind]; [|right; left; exists nums, e; split; [exact E | reflexivity]].
  destruct (get_int_get _ _ _ E5) as (w & ->). right. right. reflexivity.
Qed.

Lemma rsapub_read3 ctor j n e size : get_b64 j "modulus" = Ok n -> get_b64 j "publicExponent" = Ok e -> get_int j "size" = Ok size ->
  RsaPub_Read3 ctor j = Raise TypeError \/ (exists nums x, ctor nums = Raise x /\ RsaPub_Read3 ctor j = Raise x) \/ RsaPub_Read3 ctor j = Ok (PBytes n, PBytes e).
Proof.
  intros E1 E2 E5. unfold RsaPub_Read3. rewrite (get_b64_same _ _ _ E1), (get_b64_same _ _ _ E2). cbn [bind].
  change [PBytes n; PBytes e] with (map PBytes [n; e]). destruct (longs [n; e]) as [->|(_ & nums & ->)]; [left; reflexivity|]. cbn [bind].
  destruct (ctor nums) as [u|x] eqn:E; cbn [bind]; [|right; left; exists nums, x; split; [exact E | reflexivity]].
  destruct (get_int_get _ _ _ E5) as (w & ->). right. right. reflexivity.
Qed.

(** Reading a key and asking for its identifier. *)
Definition identified3 (ctor : constructor3) (t : ktype) (j : json) : res pyval := let* k := ReadKey3 ctor t j in key3_hash_id k.

Lemma identified ctor t s k h j : ReadKey t s = Ok k -> key_hash_id k = Ok h -> loads s = Ok j -> json_ok j -> type_error_or ctor (identified3 ctor t j).
Proof.
  unfold ReadKey, identified3. intros HR HH HL HJ.
  assert (HR' : match t with
    | AES => let* k := AesKey_Read s in Ok (KAes k) | HMAC_SHA1 => let* k := HmacKey_Read s in Ok (KHmac k)
    | DSA_PRIV => let* k := DsaPrivateKey_Read s in Ok (KDsaPriv k) | RSA_PRIV => let* k := RsaPrivateKey_Read s in Ok (KRsaPriv k)
    | DSA_PUB => let* k := DsaPublicKey_Read s in Ok (KDsaPub k) | RSA_PUB => let* k := RsaPublicKey_Read s in Ok (KRsaPub k) end = Ok k).
  { unfold key_error_to_keyczar in HR. destruct (match t with AES => _ | _ => _ end) as [x|e]; [exact HR | destruct e; discriminate]. }
  clear HR. unfold ReadKey3. destruct t.
  - unfold AesKey_Read in HR'. rewrite HL in HR'. cbn [bind] in HR'. destruct (get j "hmacKey") as [hv|] eqn:E1; cbn [bind] in HR'; [|discriminate].
    destruct (get_str j "aesKeyString") as [ks|] eqn:E2; cbn [bind] in HR'; [|discriminate]. destruct (get_str hv "hmacKeyString") as [hs|] eqn:E3; cbn [bind] in HR'; [|discriminate].
    destruct (get_int hv "size") as [hz|] eqn:E4; cbn [bind] in HR'; [|discriminate]. destruct (get_int j "size") as [z|] eqn:E5; cbn [bind] in HR'; [|discriminate].
    destruct (get_str j "mode") as [mn|] eqn:E6; cbn [bind] in HR'; [|discriminate]. destruct (GetMode mn) as [m|] eqn:E7; cbn [bind] in HR'; [|discriminate].
    destruct m; cbn [AesKey_new bind] in HR'; try discriminate. apply Ok_inj in HR' as <-. cbn [key_hash_id] in HH. unfold aes_hash_id, aes_bytes, hmac_bytes in HH. cbn [ak_string ak_hmac HmacKey_new hk_string] in HH.
    destruct (Base64WSDecode_u ks) as [kb|] eqn:D1; cbn [bind] in HH; [|discriminate]. destruct (Base64WSDecode_u hs) as [hb|] eqn:D2; cbn [bind] in HH; [|discriminate].
    cbn [bind]. rewrite (member_str _ _ _ E2), (member_str _ _ _ E3). cbn [bind]. destruct (get_int_get _ _ _ E4) as (w1 & ->). destruct (get_int_get _ _ _ E5) as (w2 & ->). cbn [bind].
    rewrite ?E6; cbn [bind]. rewrite E7. cbn [bind key3_hash_id]. rewrite (decode3 _ _ D1), (decode3 _ _ D2). left. reflexivity.
  - unfold HmacKey_Read in HR'. rewrite HL in HR'. cbn [bind] in HR'. destruct (get_str j "hmacKeyString") as [hs|] eqn:E3; cbn [bind] in HR'; [|discriminate].
    destruct (get_int j "size") as [hz|] eqn:E4; cbn [bind] in HR'; [|discriminate]. apply Ok_inj in HR' as <-. cbn [key_hash_id] in HH. unfold hmac_hash_id, hmac_bytes in HH. cbn [HmacKey_new hk_string] in HH.
    destruct (Base64WSDecode_u hs) as [hb|] eqn:D2; cbn [bind] in HH; [|discriminate]. rewrite (member_str _ _ _ E3). cbn [bind]. destruct (get_int_get _ _ _ E4) as (w1 & ->). cbn [bind].
    cbn [key3_hash_id]. rewrite (decode3 _ _ D2). left. reflexivity.
  - unfold DsaPrivateKey_Read in HR'. rewrite HL in HR'. cbn [bind] in HR'. destruct (get j "publicKey") as [pk|] eqn:E1; cbn [bind] in HR'; [|discriminate].
    unfold DsaPublicKey_Read in HR'. rewrite (loads_dumps pk (get_ok _ _ _ HJ E1)) in HR'. cbn [bind] in HR'.
    destruct (get_b64 pk "y") as [y|] eqn:P1; cbn [bind] in HR'; [|discriminate]. destruct (get_b64 pk "p") as [pp|] eqn:P2; cbn [bind] in HR'; [|discriminate].
    destruct (get_b64 pk "g") as [g|] eqn:P3; cbn [bind] in HR'; [|discriminate]. destruct (get_b64 pk "q") as [q|] eqn:P4; cbn [bind] in HR'; [|discriminate].
    destruct (get_int pk "size") as [z|] eqn:P5; cbn [bind] in HR'; [|discriminate]. destruct (get_b64 j "x") as [x|] eqn:P6; cbn [bind] in HR'; [|discriminate].
    destruct (get_int j "size") as [z'|] eqn:P7; cbn [bind] in HR'; [|discriminate]. cbn [bind].
    destruct (dsapub_read3 ctor pk pp q g y z P1 P2 P3 P4 P5) as [->|[(nums & e & EC & ->)| ->]]; cbn [bind]; [left; reflexivity | right; exists nums, e; split; [exact EC | destruct e; reflexivity]|].
    rewrite (get_b64_same _ _ _ P6). cbn [bind]. change [PBytes y; PBytes g; PBytes pp; PBytes q; PBytes x] with (map PBytes [y; g; pp; q; x]).
    destruct (longs [y; g; pp; q; x]) as [->|(_ & nums & ->)]; [left; reflexivity|]. cbn [bind]. destruct (ctor nums) as [u|e] eqn:EC; cbn [bind]; [|right; exists nums, e; split; [exact EC | destruct e; reflexivity]].
    destruct (get_int_get _ _ _ P7) as (w & ->). left. reflexivity.
  - unfold DsaPublicKey_Read in HR'. rewrite HL in HR'. cbn [bind] in HR'.
    destruct (get_b64 j "y") as [y|] eqn:P1; cbn [bind] in HR'; [|discriminate]. destruct (get_b64 j "p") as [pp|] eqn:P2; cbn [bind] in HR'; [|discriminate].
    destruct (get_b64 j "g") as [g|] eqn:P3; cbn [bind] in HR'; [|discriminate]. destruct (get_b64 j "q") as [q|] eqn:P4; cbn [bind] in HR'; [|discriminate].
    destruct (get_int j "size") as [z|] eqn:P5; cbn [bind] in HR'; [|discriminate].
    destruct (dsapub_read3 ctor j pp q g y z P1 P2 P3 P4 P5) as [->|[(nums & e & EC & ->)| ->]]; cbn [bind]; [left; reflexivity | right; exists nums, e; split; [exact EC | destruct e; reflexivity] | left; reflexivity].
  - unfold RsaPrivateKey_Read in HR'. rewrite HL in HR'. cbn [bind] in HR'. destruct (get j "publicKey") as [pk|] eqn:E1; cbn [bind] in HR'; [|discriminate].
    unfold RsaPublicKey_Read in HR'. rewrite (loads_dumps pk (get_ok _ _ _ HJ E1)) in HR'. cbn [bind] in HR'.
    destruct (get_b64 pk "modulus") as [n|] eqn:P1; cbn [bind] in HR'; [|discriminate]. destruct (get_b64 pk "publicExponent") as [x|] eqn:P2; cbn [bind] in HR'; [|discriminate].
    destruct (get_int pk "size") as [z|] eqn:P5; cbn [bind] in HR'; [|discriminate].
    destruct (get_b64 j "privateExponent") as [b1|] eqn:Q1; cbn [bind] in HR'; [|discriminate]. destruct (get_b64 j "primeP") as [b2|] eqn:Q2; cbn [bind] in HR'; [|discriminate].
    destruct (get_b64 j "primeQ") as [b3|] eqn:Q3; cbn [bind] in HR'; [|discriminate]. destruct (get_b64 j "primeExponentP") as [b4|] eqn:Q4; cbn [bind] in HR'; [|discriminate].
    destruct (get_b64 j "primeExponentQ") as [b5|] eqn:Q5; cbn [bind] in HR'; [|discriminate]. destruct (get_b64 j "crtCoefficient") as [b6|] eqn:Q6; cbn [bind] in HR'; [|discriminate].
    destruct (get_int j "size") as [z'|] eqn:P7; cbn [bind] in HR'; [|discriminate]. cbn [bind].
    destruct (rsapub_read3 ctor pk n x z P1 P2 P5) as [->|[(nums & e & EC & ->)| ->]]; cbn [bind]; [left; reflexivity | right; exists nums, e; split; [exact EC | destruct e; reflexivity]|].
    cbn [mapM]. rewrite (get_b64_same _ _ _ Q1), (get_b64_same _ _ _ Q2), (get_b64_same _ _ _ Q3), (get_b64_same _ _ _ Q4), (get_b64_same _ _ _ Q5), (get_b64_same _ _ _ Q6). cbn [bind].
    change (let* b := BytesToLong3 (PBytes n) in _) with (mapM BytesToLong3 (map PBytes [n; x; b1; b2; b3; b4; b5; b6])).
    destruct (longs [n; x; b1; b2; b3; b4; b5; b6]) as [->|(_ & nums & ->)]; [left; reflexivity|]. cbn [bind]. destruct (ctor nums) as [u|e] eqn:EC; cbn [bind]; [|right; exists nums, e; split; [exact EC | destruct e; reflexivity]].
    destruct (get_int_get _ _ _ P7) as (w & ->). left. reflexivity.
  - unfold RsaPublicKey_Read in HR'. rewrite HL in HR'. cbn [bind] in HR'.
    destruct (get_b64 j "modulus") as [n|] eqn:P1; cbn [bind] in HR'; [|discriminate]. destruct (get_b64 j "publicExponent") as [x|] eqn:P2; cbn [bind] in HR'; [|discriminate].
    destruct (get_int j "size") as [z|] eqn:P5; cbn [bind] in HR'; [|discriminate].
    destruct (rsapub_read3 ctor j n x z P1 P2 P5) as [->|[(nums & e & EC & ->)| ->]]; cbn [bind]; [left; reflexivity | right; exists nums, e; split; [exact EC | destruct e; reflexivity] | left; reflexivity].
Qed.

(** The reader of [rd] as Python 3 sees it: the same texts. *)
Definition same_texts (rd : reader) : reader3 :=
  MkReader3 (let* s := rd_meta rd in meta_Read s) (fun n => let* s := rd_key rd n in loads s) (rd_encrypted rd).

Lemma ReadKey_loads t s k : ReadKey t s = Ok k -> exists j, loads s = Ok j.
Proof.
  destruct (loads s) as [j|e] eqn:E; [eauto|]. unfold ReadKey, key_error_to_keyczar, AesKey_Read, HmacKey_Read, DsaPrivateKey_Read, RsaPrivateKey_Read, DsaPublicKey_Read, RsaPublicKey_Read. rewrite E.
  destruct t, e; discriminate.
Qed.

(** Every set with a key that opens under Python 2 (with texts the json module writes back) gives a TypeError under Python 3, or the
    exception of PyCrypto's constructor for a key without numbers. *)
Theorem C59_good_sets_refuted : forall ctor c rd ks, open_keyset c rd = Ok ks -> ks_objs ks <> [] ->
  (forall n s j, rd_key rd n = Ok s -> loads s = Ok j -> json_ok j) -> type_error_or ctor (open3 ctor c (same_texts rd)).
Proof.
  intros ctor c rd ks HO HV HJ. unfold open_keyset in HO. unfold open3, same_texts. cbn [r3_meta r3_encrypted].
  destruct (rd_meta rd) as [s|]; cbn [bind] in *; [|discriminate]. destruct (meta_Read s) as [m|]; cbn [bind] in *; [|discriminate].
  destruct (negb (IsAcceptablePurpose c (m_purpose m))); [discriminate|]. destruct (m_encrypted m && negb (rd_encrypted rd)); [discriminate|].
  destruct (load_keys rd (m_type m) 0 (meta_versions m) None [] []) as [[[p vk] hk]|] eqn:EL; cbn [bind] in HO; [|discriminate]. apply Ok_inj in HO as <-. cbn [ks_objs] in HV.
  destruct (meta_versions m) as [|v vs]; [contradiction|]. cbn [load_keys] in EL. cbn [load_keys3].
  assert (EP : exists pr, (if status_eqb (v_status v) PRIMARY then Ok (Some (v_num v)) else Ok None) = Ok pr :> res (option Z)) by (destruct (status_eqb _ _); eauto). destruct EP as (pr & EP). rewrite EP. cbn [bind].
  assert (EP2 : exists pr2, (if status_eqb (v_status v) PRIMARY then Ok (Some O) else Ok None) = Ok pr2 :> res (option nat)) by (destruct (status_eqb _ _); eauto). destruct EP2 as (pr2 & EP2). rewrite EP2 in EL. cbn [bind] in EL.
  cbn [r3_key]. destruct (rd_key rd (v_num v)) as [t|] eqn:ET; cbn [bind] in EL; [|discriminate]. destruct (ReadKey (m_type m) t) as [k|] eqn:ER; cbn [bind] in EL; [|discriminate].
  destruct (key_hash_id k) as [h|] eqn:EH; cbn [bind] in EL; [|discriminate]. destruct (ReadKey_loads _ _ _ ER) as (j & EJ). cbn [bind]. rewrite EJ. cbn [bind].
  pose proof (identified ctor (m_type m) t k h j ER EH EJ (HJ _ _ _ ET EJ)) as T. unfold identified3 in T. destruct (ReadKey3 ctor (m_type m) j) as [k3|e]; cbn [bind] in *.
  - destruct T as [->|(nums & e & EC & ->)]; [left; reflexivity | right; exists nums, e; split; [exact EC | reflexivity]].
  - destruct T as [T|(nums & e' & EC & T)]; [left; congruence | right; exists nums, e'; split; [exact EC | congruence]].
Qed.
Print Assumptions C59_good_sets_refuted.

(** ** The exceptions of the operations *)

(** AddVersion: TypeError for every type a key can be generated for, KeyczarError for a size that is refused and for public keys. *)
Theorem C59_AddVersion_error_refuted : forall ks d ds s size,
  let t := m_type (k3_meta ks) in let sz := match size with Some z => z | None => default_size t end in
  snd (AddVersion3 ks (d :: ds) s size) = Raise (if IsValidSize t sz && match t with DSA_PUB | RSA_PUB => false | _ => true end then TypeError else KeyczarError).
Proof.
  intros ks d ds s size t sz. unfold AddVersion3. fold t. fold sz. destruct (IsValidSize t sz) eqn:EV; cbn [negb andb]; [|reflexivity].
  cbn [gen_unique3]. unfold GenKey3. rewrite EV. cbn [negb]. destruct (d3_pub d) as [[[a b] c] e]. destruct t; reflexivity.
Qed.
Print Assumptions C59_AddVersion_error_refuted.

(** Reading a header, of text or of bytes. *)
Definition header_error (v : pyval) : exn := match v with PStr (c :: _) => if (c =? 0)%N then TypeError else BadVersionError (Z.of_N c) | _ => TypeError end.

Lemma ParseHeader3_error ks v : py_len v <> Ok 0 -> ParseHeader3 ks v = Raise (header_error v).
Proof.
  intros HL. unfold ParseHeader3, header_error. destruct v as [|[|c t]|[|b s]|z|x y|]; try reflexivity; try (destruct (HL eq_refl)).
  cbn [py_first bind py_ord]. change VERSION with 0. replace (Z.of_N c =? 0) with (c =? 0)%N by lia. destruct (c =? 0)%N; reflexivity.
Qed.

Lemma slice5_len v n : py_len v = Ok n -> 5 <= n -> exists w, py_slice v 0 HEADER_SIZE = Ok w /\ py_len w <> Ok 0 /\ header_error w = header_error v.
Proof.
  destruct v as [|[|c t]|[|b s]|z|x y|]; try discriminate; cbn [py_len py_slice]; intros E L; apply Ok_inj in E; try (rewrite len_nil in E; lia).
  - eexists. split; [reflexivity|]. assert (EQ : exists t', slice (c :: t) 0 HEADER_SIZE = c :: t').
    { change (slice (c :: t) 0 HEADER_SIZE) with (slice_to (c :: t) 5). rewrite slice_to_firstn by lia. eexists. reflexivity. }
    destruct EQ as (t' & ->). split; [cbn [py_len]; rewrite len_cons; pose proof (len_nonneg t'); intros HX; apply Ok_inj in HX; lia | reflexivity].
  - eexists. split; [reflexivity|]. assert (EQ : exists t', slice (b :: s) 0 HEADER_SIZE = b :: t').
    { change (slice (b :: s) 0 HEADER_SIZE) with (slice_to (b :: s) 5). rewrite slice_to_firstn by lia. eexists. reflexivity. }
    destruct EQ as (t' & ->). split; [cbn [py_len]; rewrite len_cons; pose proof (len_nonneg t'); intros HX; apply Ok_inj in HX; lia | reflexivity].
Qed.

(** What the operations raise on the sets a program can have, for values that are not decoded first: KeyNotFoundError where the primary key is
    needed; for ciphertexts and signatures the errors for short values and wrong version bytes that Python 2 gives, on text, and
    otherwise TypeError.  An unversioned verifier answers False to everything. *)
Theorem C59_errors_refuted : forall ctor ks ms, reached3 ctor ks ->
  (exists x, forall data nonce enc, Encrypt3 ms ks data enc = Raise (KeyNotFoundError x) /\ Sign3 ms ks data enc = Raise (KeyNotFoundError x) /\
     AttachedSign3 ms ks data nonce enc = Raise (KeyNotFoundError x) /\ UnversionedSign3 ms ks data enc = Raise (KeyNotFoundError x)) /\
  (forall c, Decrypt3 ms ks c None = Raise (match py_len c with Ok n => if n <? 5 then ShortCiphertextError n else header_error c | Raise e => e end)) /\
  (forall data sig, Verify3 ms ks data sig None = Raise (match py_len sig with Ok n => if n <? 5 then ShortSignatureError n else header_error sig | Raise e => e end)) /\
  (forall blob nonce, AttachedVerify3 ms ks blob nonce None = Raise (match blob with PBytes b => if len b <? 9 then StructError else TypeError | _ => TypeError end)) /\
  (forall data sig, UnversionedVerify3 ms ks data sig None = Ok false).
Proof.
  intros ctor ks ms HR. destruct (reached3_empty ctor ks HR) as (_ & HV & _).
  assert (exists x, primary_key3 ks = Raise (KeyNotFoundError x)) as (x & HP) by (unfold primary_key3, GetKey3; rewrite HV; destruct (k3_primary ks); eexists; reflexivity).
  split; [|split; [|split; [|split]]].
  - exists x. intros data nonce enc. unfold Encrypt3, Sign3, AttachedSign3, UnversionedSign3. rewrite HP. repeat split.
  - intros c. unfold Decrypt3. cbn [apply_codec3 bind]. destruct (py_len c) as [n|e] eqn:EL; cbn [bind]; [|reflexivity]. change HEADER_SIZE with 5 at 1. destruct (Z.ltb_spec n 5); [reflexivity|].
    destruct (slice5_len c n EL ltac:(lia)) as (w & -> & W1 & W2). cbn [bind]. rewrite (ParseHeader3_error ks w W1), W2. reflexivity.
  - intros data sig. unfold Verify3. cbn [apply_codec3 bind]. destruct (py_len sig) as [n|e] eqn:EL; cbn [bind]; [|reflexivity]. change HEADER_SIZE with 5 at 1. destruct (Z.ltb_spec n 5); [reflexivity|].
    destruct (slice5_len sig n EL ltac:(lia)) as (w & -> & W1 & W2). cbn [bind].
    assert (exists r, py_from sig HEADER_SIZE = Ok r) as (r & ->) by (destruct sig; try discriminate; eexists; reflexivity). cbn [bind]. unfold InternalVerify3. rewrite (ParseHeader3_error ks w W1), W2. reflexivity.
  - intros blob nonce. unfold AttachedVerify3. cbn [apply_codec3 bind]. unfold UnpackByteArray3. destruct blob as [|t|b|z|y z|]; try reflexivity. cbn [py_slice bind unpack_int].
    change (HEADER_SIZE) with 5 at 1 2. change (5 + 4) with 9. 
    assert (LS : len (slice b 5 9) = Z.min 4 (Z.max 0 (len b - 5))) by (unfold slice; unfold len at 1; rewrite firstn_length, skipn_length; unfold clamp; change (5 <? 0) with false; change (9 <? 0) with false; cbv iota; unfold len in *; lia).
    destruct (Z.ltb_spec (len b) 9) as [L|L].
    + destruct (slice b 5 9) as [|b1 [|b2 [|b3 [|b4 [|b5 r]]]]]; rewrite ?len_cons, ?len_nil in LS; try reflexivity; exfalso; lia.
    + assert (exists n, struct_unpack_i (slice b 5 9) = Ok n) as (n & ->).
      { destruct (slice b 5 9) as [|b1 [|b2 [|b3 [|b4 [|b5 r]]]]]; rewrite ?len_cons, ?len_nil in LS; try lia; [eexists; reflexivity | pose proof (len_nonneg r); lia]. }
      cbn [bind py_len py_from].
      assert (exists w, slice b 0 HEADER_SIZE = w /\ w <> []) as (w & EW & NW).
      { eexists. split; [reflexivity|]. destruct b as [|x0 b]; [rewrite len_nil in L; lia|]. change (slice (x0 :: b) 0 HEADER_SIZE) with (slice_to (x0 :: b) 5). rewrite slice_to_firstn by lia. discriminate. }
      unfold py_from. cbn [py_len bind py_slice]. rewrite EW. unfold InternalVerify3. rewrite ParseHeader3_error; [reflexivity|]. cbn [py_len]. destruct w; [contradiction|]. rewrite len_cons. pose proof (len_nonneg w). intros H1. apply Ok_inj in H1. lia.
  - intros data sig. unfold UnversionedVerify3. rewrite HV. reflexivity.
Qed.
Print Assumptions C59_errors_refuted.

(** No version can be promoted, demoted or revoked: on the sets a program can have there is none, and whatever number is given
    the call raises KeyczarError and changes nothing. *)
Theorem C59_no_version_changes_refuted : forall ctor ks, reached3 ctor ks -> forall f n, change3 f ks n = (ks, Raise KeyczarError).
Proof. intros ctor ks HR f n. destruct (reached3_empty ctor ks HR) as (HV & _). unfold change3. rewrite HV. reflexivity. Qed.
Print Assumptions C59_no_version_changes_refuted.

(** testdata/hmac is such a set. *)
Example C59_good_sets_case : open_keyset GenericKeyczar hmac_reader = Ok hmac_set /\ ks_objs hmac_set <> [] /\
  (forall n s j, rd_key hmac_reader n = Ok s -> loads s = Ok j -> json_ok j).
Proof.
  split; [exact hmac_set_opens|]. split; [discriminate|]. intros n s j. cbn [rd_key hmac_reader].
  assert (A : forall t, forallb (fun c => (c <? 55296)%N) t = true -> text_ok t).
  { induction t as [|c t IH]; cbn [forallb text_ok]; [trivial|]. intros H. apply andb_true_iff in H as [H1 H2]. split; [lia|]. split; [unfold high; lia | exact (IH H2)]. }
  assert (K : forall t v, loads t = Ok v -> match v with JObj m => forallb (fun p => forallb (fun c => (c <? 55296)%N) (fst p) && match snd p with JStr u => forallb (fun c => (c <? 55296)%N) u | JInt _ => true | _ => false end) m | _ => false end = true -> json_ok v).
  { intros t v _ H. destruct v as [| | | | | |m]; try discriminate. apply json_ok_obj, Forall_forall. intros [k v] HI. rewrite forallb_forall in H. specialize (H _ HI). cbn [fst snd] in *. apply andb_true_iff in H as [H1 H2].
    split; [apply A, H1|]. destruct v; try discriminate; [exact Logic.I | apply A, H2]. }
  destruct (n =? 1); [|destruct (n =? 2); [|discriminate]]; intros E; apply Ok_inj in E as <-; intros HL; apply (K _ _ HL); revert HL.
  - assert (X : exists v, loads hmac_1 = Ok v) by (eexists; vm_compute; reflexivity). destruct X as (v & X). rewrite X. intros E. apply Ok_inj in E as <-. revert X. vm_compute. intros X. apply Ok_inj in X as <-. reflexivity.
  - assert (X : exists v, loads hmac_2 = Ok v) by (eexists; vm_compute; reflexivity). destruct X as (v & X). rewrite X. intros E. apply Ok_inj in E as <-. revert X. vm_compute. intros X. apply Ok_inj in X as <-. reflexivity.
Qed.
