(** * Props_Messages: property C86 (what the text of a refusal tells). *)
From Coq Require Import Strings.String.
From Coq Require Import List ZArith NArith Bool Lia ZifyBool ZifyNat ZifyN.
From Coq.Init Require Import Byte.
From Verif Require Import PyBase PyFacts Base64 Base64Facts Sha1 Util UtilFacts Aes Json JsonFacts JsonSpec JsonSpecFacts KeyInfo SymKeys SymFacts ModArith ModFacts Der AsymKeys AsymSpec AsymFacts
  Keys KeysFacts KeyData Keyczar KeyRing KeyczarFacts ErrFacts Props_Util Props_Asym Props_Keyset Props_Sign Props_Disk Props_Rsa Props_Oaep Messages.
Import ListNotations.
Local Open Scope Z_scope.
Ltac Zify.zify_post_hook ::= idtac.

(** ** Specification *)

(** Two exceptions of one class, whatever their arguments. *)
Definition same_class (e e' : exn) : Prop :=
  match e, e' with
  | BadVersionError _, BadVersionError _ | KeyNotFoundError _, KeyNotFoundError _
  | ShortCiphertextError _, ShortCiphertextError _ | ShortSignatureError _, ShortSignatureError _ => True
  | _, _ => e = e'
  end.

(** The sentence [a] [n] [b], with the number in decimal. *)
Definition sentence (a : string) (n : Z) (b : string) (text : str) : Prop := exists d, decimal d n /\ text = bs a ++ d ++ bs b.

(** The outcome without the text. *)
Definition outcome {A} (t : told A) : res A := match t with Fine a => Ok a | Refused e _ => Raise e end.

(** ** The functions with texts are the functions of the model *)

Lemma outcome_tell {A} (r : res A) : outcome (tell r) = r.
Proof. destruct r; reflexivity. Qed.
Lemma outcome_bind {A B} (t : told A) (k : A -> told B) : outcome (mbind t k) = (let* a := outcome t in outcome (k a)).
Proof. destruct t; reflexivity. Qed.
Lemma outcome_MGF s n : outcome (MGF_m s n) = MGF s n.
Proof. unfold MGF_m, MGF. destruct (_ <? n); reflexivity. Qed.

Lemma outcome_oaep k s : outcome (oaep_decode_m k s) = oaep_decode k s.
Proof.
  unfold oaep_decode_m, oaep_decode. destruct (_ <? 2 * HLEN + 2); [reflexivity|]. cbv zeta.
  rewrite outcome_bind, outcome_MGF. destruct (MGF _ HLEN); cbn [bind]; [|reflexivity].
  rewrite outcome_bind, outcome_MGF. destruct (MGF _ _); cbn [bind]; [|reflexivity].
  destruct (negb (str_eqb _ _)); [reflexivity|]. rewrite outcome_bind, outcome_tell. destruct (index _ 0); cbn [bind]; [|reflexivity]. destruct (negb _); reflexivity.
Qed.

Theorem C86_same_functions :
  (forall ks s d, outcome (Decrypt_m ks s d) = Decrypt ks s d) /\ (forall ks data s d, outcome (Verify_m ks data s d) = Verify ks data s d) /\
  (forall ks s n d, outcome (AttachedVerify_m ks s n d) = AttachedVerify ks s n d) /\ (forall ks data s d, outcome (UnversionedVerify_m ks data s d) = UnversionedVerify ks data s d).
Proof.
  split; [|repeat split; intros; apply outcome_tell]. intros ks s d. unfold Decrypt_m, Decrypt. rewrite outcome_bind, outcome_tell. destruct (apply_codec d s) as [b|e]; cbn [bind]; [|reflexivity].
  destruct (_ <? HEADER_SIZE); [reflexivity|]. rewrite outcome_bind, outcome_tell. destruct (ParseHeader _ _) as [k|e]; cbn [bind]; [|reflexivity].
  destruct k; cbn [key_Decrypt_m]; try apply outcome_tell. cbn [key_Decrypt]. unfold RsaPrivateKey_Decrypt_m, RsaPrivateKey_Decrypt. rewrite outcome_bind, outcome_tell.
  destruct (rsa_decrypt_str _ _); cbn [bind]; [apply outcome_oaep | reflexivity].
Qed.
Print Assumptions C86_same_functions.

(** ** Which exceptions carry arguments *)

(** Classes whose text has no argument and is not given where they are raised. *)
Definition bare (e : exn) : Prop :=
  match e with BadVersionError _ | KeyNotFoundError _ | ShortCiphertextError _ | ShortSignatureError _ | KeyczarError => False | _ => True end.
Definition only {A} (P : exn -> Prop) (r : res A) : Prop := forall e, r = Raise e -> P e.

Lemma only_Ok {A} P (a : A) : only P (Ok a).
Proof. intros e H. discriminate. Qed.
Lemma only_Raise {A} (P : exn -> Prop) e : P e -> only P (@Raise A e).
Proof. intros H e' E. apply Raise_inj in E as <-. exact H. Qed.
Lemma only_bind {A B} P (r : res A) (f : A -> res B) : only P r -> (forall a, only P (f a)) -> only P (bind r f).
Proof. intros Hr Hf. destruct r as [a|e]; cbn [bind]; [apply Hf | apply only_Raise, Hr; reflexivity]. Qed.
Lemma only_mapM {A B} P (f : A -> res B) l : (forall a, only P (f a)) -> only P (mapM f l).
Proof.
  intros H. induction l as [|a l IH]; cbn [mapM]; [apply only_Ok|]. apply only_bind; [apply H|]. intros b.
  apply only_bind; [exact IH|]. intros. apply only_Ok.
Qed.
Ltac only1 :=
  match goal with
  | |- only _ (Ok _) => apply only_Ok
  | |- only _ (Raise _) => apply only_Raise; cbn; tauto
  | |- only _ (bind _ _) => apply only_bind; [|intros]
  | |- only _ (mapM _ _) => apply only_mapM; intros
  | |- only _ (if ?b then _ else _) => destruct b
  | |- only _ (let (_, _) := ?p in _) => destruct p
  | |- only _ (match ?x with _ => _ end) => destruct x
  end.

Lemma bare_a2b s : forall q b c, only bare (a2b_loop s q b c).
Proof.
  induction s as [|a s IH]; intros q b c; cbn [a2b_loop]; [repeat only1|].
  destruct (beqb a "="%byte); [destruct (_ || _); [apply IH | apply only_Ok]|].
  destruct (b64_val a); [|apply IH]. cbv zeta. destruct (8 <=? b + 6); [|apply IH].
  apply only_bind; [apply IH | intros; apply only_Ok].
Qed.
Lemma bare_decode_stripped s : only bare (decode_stripped s).
Proof.
  unfold decode_stripped. cbv zeta. destruct (_ =? 1); [repeat only1|].
  set (t := map _ _). pose proof (bare_a2b t 0 0 0) as Q. unfold a2b_base64.
  destruct (a2b_loop t 0 0 0) as [x|e]; [apply only_Ok|]. specialize (Q e eq_refl).
  destruct e; try (apply only_Raise; first [exact Q | exact I]).
Qed.
Lemma bare_b64u u : only bare (Base64WSDecode_u u).
Proof. unfold Base64WSDecode_u. apply only_bind; [|intros; apply bare_decode_stripped]. unfold str_of_text. apply only_mapM. intros a. repeat only1. Qed.
Lemma bare_b64 s : only bare (Base64WSDecode s).
Proof. unfold Base64WSDecode. apply bare_decode_stripped. Qed.
Lemma bare_HmacVerify k m s : only bare (HmacKey_Verify k m s).
Proof. unfold HmacKey_Verify, HmacKey_Sign. apply only_bind; [apply only_bind; [apply bare_b64u | intros; apply only_Ok] | intros; apply only_Ok]. Qed.
Lemma bare_Verify k m s : only bare (key_Verify k m s).
Proof.
  assert (D : forall kk, only bare (DsaPublicKey_Verify kk m s)).
  { intros kk. unfold DsaPublicKey_Verify. destruct (ParseDsaSig s) as [[r q]|e]; [apply only_Ok|]. destruct (is_keyczar_error e) eqn:E; [apply only_Ok | apply only_Raise; destruct e; try discriminate E; exact I]. }
  destruct k; cbn [key_Verify]; repeat only1; try apply D. apply bare_HmacVerify.
Qed.
Lemma bare_pack n : only bare (PackByteArray n).
Proof. unfold PackByteArray, struct_pack_i. destruct n as [a|]; repeat only1. Qed.
Lemma bare_unpack d o : only bare (UnpackByteArray d o).
Proof. unfold UnpackByteArray, struct_unpack_i. cbv zeta. repeat only1. Qed.

Lemma AesDecrypt_only k ct : only (fun e => e = ShortCiphertextError (len (slice_from ct 5)) \/ bare e) (AesKey_Decrypt k ct).
Proof.
  unfold AesKey_Decrypt. cbv zeta. change HEADER_SIZE with 5. destruct (_ <? _); [apply only_Raise; left; reflexivity|].
  assert (W : forall A (r : res A), only bare r -> only (fun e => e = ShortCiphertextError (len (slice_from ct 5)) \/ bare e) r) by (intros A r H e E; right; apply H, E).
  apply W. apply only_bind; [apply bare_HmacVerify|]. intros b. destruct (negb b); [apply only_Raise; exact I|]. apply only_bind; [apply bare_b64u|]. intros kb.
  apply only_bind; [unfold AES_new; repeat only1|]. intros c. apply only_bind; [unfold cipher_decrypt; repeat only1|]. intros [p c']. unfold UnPad, index. repeat only1.
Qed.

Lemma key_Decrypt_only k ct : key_type k <> RSA_PRIV -> only (fun e => e = ShortCiphertextError (len (slice_from ct 5)) \/ bare e) (key_Decrypt k ct).
Proof. destruct k; cbn [key_type key_Decrypt]; intros H; try (apply only_Raise; right; exact I); [apply AesDecrypt_only | contradiction H; reflexivity]. Qed.

Lemma same_bare e e' : bare e -> bare e' -> same_class e e' -> e = e'.
Proof. destruct e, e'; cbn; congruence || tauto. Qed.

(** The key a header names is one of the set, and of its type. *)
Lemma header_key ks h k : reached ks -> ParseHeader ks h = Ok k -> key_type k = ks_type ks.
Proof.
  intros R. pose proof (reached_inv ks R) as I. unfold ParseHeader. destruct (index h 0) as [c|e]; cbn [bind]; [|discriminate]. destruct (negb _); [discriminate|].
  intros H. apply (proj1 (GetKey_hash_spec ks _ I)) in H as (_ & o & HI). apply (inv_type ks I o k HI).
Qed.

(** The errors of the header are those of the input. *)
Definition header_says (h : str) (e : exn) : Prop :=
  e = IndexError \/ (exists c, index h 0 = Ok c /\ e = BadVersionError (ord c)) \/ e = KeyNotFoundError (Base64WSEncode (slice_from h 1)).
Lemma header_only ks h : only (header_says h) (ParseHeader ks h).
Proof.
  unfold ParseHeader. destruct (index h 0) as [c|e] eqn:E; cbn [bind].
  - destruct (negb _); [apply only_Raise; right; left; exists c; split; [exact E | reflexivity]|]. unfold GetKey_hash. destruct (assoc _ _ _); [apply only_Ok | apply only_Raise; right; right; reflexivity].
  - unfold index in E. destruct (_ <? 0); [apply Raise_inj in E as <-; apply only_Raise; left; reflexivity|]. destruct (nth_error _ _); [discriminate|]. apply Raise_inj in E as <-. apply only_Raise. left. reflexivity.
Qed.

(** Errors of one class and of one input are the same error. *)
Definition from_input (h : str) (n : Z) (e : exn) : Prop := header_says h e \/ e = ShortCiphertextError n \/ bare e.
Lemma from_input_same h n e e' : from_input h n e -> from_input h n e' -> same_class e e' -> e = e'.
Proof.
  intros H H' S. destruct H as [[-> | [(c & HC & ->) | ->]] | [-> | H]], H' as [[-> | [(c' & HC' & ->) | ->]] | [-> | H']];
    try reflexivity; try (cbn in S; congruence); try (destruct e'; cbn in S, H'; congruence || tauto); try (destruct e; cbn in S, H; congruence || tauto).
Qed.

(** ** C86 *)

Lemma tell_Refused {A} (r : res A) e x : tell r = Refused e x -> r = Raise e /\ x = error_text e.
Proof. destruct r; cbn; intros H; [discriminate|]. injection H as <- <-. split; reflexivity. Qed.
Lemma mbind_Refused {A B} (t : told A) (k : A -> told B) e x : mbind t k = Refused e x -> t = Refused e x \/ exists a, t = Fine a /\ k a = Refused e x.
Proof. destruct t as [a|e0 x0]; cbn [mbind]; intros H; [right; exists a; split; [reflexivity | exact H] | left; injection H as -> ->; reflexivity]. Qed.
Lemma tell_Fine {A} (r : res A) a : tell r = Fine a -> r = Ok a.
Proof. destruct r; cbn; intros H; [|discriminate]. injection H as <-. reflexivity. Qed.

Lemma Decrypt_from ks t dec ct e x : reached ks -> ks_type ks <> RSA_PRIV -> apply_codec dec t = Ok ct -> Decrypt_m ks t dec = Refused e x ->
  x = error_text e /\ (if len ct <? 5 then e = ShortCiphertextError (len ct) else from_input (slice_to ct 5) (len (slice_from ct 5)) e).
Proof.
  intros R T EC H. unfold Decrypt_m in H. rewrite EC in H. cbn [tell mbind] in H. change HEADER_SIZE with 5 in H. destruct (len ct <? 5) eqn:EL.
  - injection H as <- <-. split; reflexivity.
  - apply mbind_Refused in H as [H | (k & HK & H)].
    + apply tell_Refused in H as [H ->]. split; [reflexivity|]. left. apply (header_only ks _ _ H).
    + apply tell_Fine in HK. pose proof (header_key ks _ _ R HK) as KT. assert (X : tell (key_Decrypt k ct) = Refused e x).
      { destruct k; try exact H. cbn [key_type] in KT. congruence. }
      apply tell_Refused in X as [X ->]. split; [reflexivity|]. right. apply (key_Decrypt_only k ct); [congruence | exact X].
Qed.

(** Someone who is told the class of the error learns nothing from its text but what is in the text they
    sent: two sets of keys, of any kind but RSA private keys, that refuse a ciphertext with one class of error do so with one text. *)
Theorem C86_decrypt_text : forall ks ks' t dec e e' x x', reached ks -> reached ks' -> ks_type ks <> RSA_PRIV -> ks_type ks' <> RSA_PRIV ->
  Decrypt_m ks t dec = Refused e x -> Decrypt_m ks' t dec = Refused e' x' -> same_class e e' -> e = e' /\ x = x'.
Proof.
  intros ks ks' t dec e e' x x' R R' T T' H H' S. assert (G : e = e').
  - destruct (apply_codec dec t) as [ct|e0] eqn:EC.
    + destruct (Decrypt_from ks t dec ct e x R T EC H) as [_ A]. destruct (Decrypt_from ks' t dec ct e' x' R' T' EC H') as [_ A']. destruct (len ct <? 5); [congruence|]. apply (from_input_same _ _ _ _ A A' S).
    + unfold Decrypt_m in H, H'. rewrite EC in H, H'. cbn in H, H'. congruence.
  - split; [exact G|]. destruct (apply_codec dec t) as [ct|e0] eqn:EC.
    + destruct (Decrypt_from ks t dec ct e x R T EC H) as [-> _]. destruct (Decrypt_from ks' t dec ct e' x' R' T' EC H') as [-> _]. congruence.
    + unfold Decrypt_m in H, H'. rewrite EC in H, H'. cbn in H, H'. congruence.
Qed.
Print Assumptions C86_decrypt_text.

(** So it is with signatures, for keys of every kind; and no plain KeyczarError is raised. *)
Lemma Verify_from ks data t dec sig : apply_codec dec t = Ok sig ->
  only (fun e => if len sig <? 5 then e = ShortSignatureError (len sig) else from_input (slice_to sig 5) 0 e) (Verify ks data t dec).
Proof.
  intros EC. unfold Verify. rewrite EC. cbn [bind]. change HEADER_SIZE with 5. destruct (len sig <? 5); [apply only_Raise; reflexivity|]. unfold InternalVerify.
  apply only_bind; [intros e H; left; apply (header_only ks _ _ H)|]. intros k. apply only_bind; [intros e H; right; right; apply (bare_pack _ _ H)|]. intros p e H. right. right. apply (bare_Verify _ _ _ _ H).
Qed.
Lemma Attached_from ks t nonce dec d : apply_codec dec t = Ok d -> only (from_input (slice_to d 5) 0) (AttachedVerify ks t nonce dec).
Proof.
  intros EC. unfold AttachedVerify. rewrite EC. cbn [bind]. change HEADER_SIZE with 5. apply only_bind; [intros e H; right; right; apply (bare_unpack _ _ _ H)|]. intros [data o].
  apply only_bind; [|intros; apply only_Ok]. unfold InternalVerify. apply only_bind; [intros e H; left; apply (header_only ks _ _ H)|]. intros k.
  apply only_bind; [intros e H; right; right; apply (bare_pack _ _ H)|]. intros p e H. right. right. apply (bare_Verify _ _ _ _ H).
Qed.
Lemma any_bare l data sig : only bare (verify_any l data sig).
Proof. induction l as [|[o k] l IH]; cbn [verify_any]; [apply only_Ok|]. apply only_bind; [apply bare_Verify|]. intros [|]; [apply only_Ok | exact IH]. Qed.
Lemma from_not_plain h n e : from_input h n e -> e <> KeyczarError.
Proof. intros [[-> | [(c & _ & ->) | ->]] | [-> | H]] C; try discriminate C. rewrite C in H. exact H. Qed.

Theorem C86_verify_text :
  (forall ks ks' data data' t dec e e' x x', Verify_m ks data t dec = Refused e x -> Verify_m ks' data' t dec = Refused e' x' -> same_class e e' -> e = e' /\ x = x') /\
  (forall ks ks' t nonce nonce' dec e e' x x', AttachedVerify_m ks t nonce dec = Refused e x -> AttachedVerify_m ks' t nonce' dec = Refused e' x' -> same_class e e' -> e = e' /\ x = x') /\
  (forall ks ks' data data' t dec e e' x x', UnversionedVerify_m ks data t dec = Refused e x -> UnversionedVerify_m ks' data' t dec = Refused e' x' -> same_class e e' -> e = e' /\ x = x') /\
  (forall ks data t dec x nonce, In dec [None; b64_decoder] ->
     Verify_m ks data t dec <> Refused KeyczarError x /\ AttachedVerify_m ks t nonce dec <> Refused KeyczarError x /\ UnversionedVerify_m ks data t dec <> Refused KeyczarError x).
Proof.
  assert (G : forall A B (r : res A) (r' : res B) e e' x x', (forall e e', r = Raise e -> r' = Raise e' -> same_class e e' -> e = e') -> tell r = Refused e x -> tell r' = Refused e' x' -> same_class e e' -> e = e' /\ x = x').
  { intros A B r r' e e' x x' H H1 H2 S. apply tell_Refused in H1 as [H1 ->]. apply tell_Refused in H2 as [H2 ->]. rewrite (H e e' H1 H2 S). split; reflexivity. }
  split; [|split; [|split]].
  - intros ks ks' data data' t dec e e' x x'. apply G. clear. intros e e' H H' S. destruct (apply_codec dec t) as [sig|e0] eqn:EC.
    + pose proof (Verify_from ks data t dec sig EC e H) as A. pose proof (Verify_from ks' data' t dec sig EC e' H') as A'. cbn beta in A, A'. destruct (len sig <? 5); [congruence|]. apply (from_input_same _ _ _ _ A A' S).
    + unfold Verify in H, H'. rewrite EC in H, H'. cbn in H, H'. congruence.
  - intros ks ks' t nonce nonce' dec e e' x x'. apply G. clear. intros e e' H H' S. destruct (apply_codec dec t) as [d|e0] eqn:EC.
    + apply (from_input_same _ _ _ _ (Attached_from ks t nonce dec d EC e H) (Attached_from ks' t nonce' dec d EC e' H') S).
    + unfold AttachedVerify in H, H'. rewrite EC in H, H'. cbn in H, H'. congruence.
  - intros ks ks' data data' t dec e e' x x'. apply G. clear. intros e e' H H' S. unfold UnversionedVerify in H, H'. destruct (apply_codec dec t) as [sig|e0]; cbn [bind] in H, H'; [|congruence].
    apply (same_bare e e' (any_bare _ _ _ _ H) (any_bare _ _ _ _ H') S).
  - intros ks data t dec x nonce HD. assert (C : only bare (apply_codec dec t)) by (destruct HD as [<- | [<- | []]]; [apply only_Ok | apply bare_b64]).
    split; [|split]; intros H; apply tell_Refused in H as [H _]; destruct (apply_codec dec t) as [s|e0] eqn:EC.
    + pose proof (Verify_from ks data t dec s EC _ H) as A. cbn beta in A. destruct (len s <? 5); [discriminate A | apply (from_not_plain _ _ _ A); reflexivity].
    + unfold Verify in H. rewrite EC in H. cbn in H. apply Raise_inj in H as ->. apply (C _ eq_refl).
    + apply (from_not_plain _ _ _ (Attached_from ks t nonce dec s EC _ H)). reflexivity.
    + unfold AttachedVerify in H. rewrite EC in H. cbn in H. apply Raise_inj in H as ->. apply (C _ eq_refl).
    + unfold UnversionedVerify in H. rewrite EC in H. cbn [bind] in H. apply (any_bare _ _ _ _ H).
    + unfold UnversionedVerify in H. rewrite EC in H. cbn in H. apply Raise_inj in H as ->. apply (C _ eq_refl).
Qed.
Print Assumptions C86_verify_text.

(** The sentences, for sets of AES keys and for signatures: all they contain is the length of the input, or of
    what follows its header, its first byte and the identifier in it.  Errors of the interpreter or of the AES library
    follow only if the tag is right (C18). *)
Lemma decimal_int n : 0 <= n -> decimal (int_to_str n) n.
Proof.
  intros H. rewrite int_to_str_dec. destruct (Z.ltb_spec n 0); [lia|]. pose proof (parse_nat_dec n [] H I) as P. rewrite app_nil_r in P.
  destruct (parse_nat_sound _ _ _ P) as (p & -> & HD). rewrite app_nil_r. exact HD.
Qed.
Lemma cut5 (ct : str) : 5 <= len ct -> exists b id rest, ct = b :: id ++ rest /\ len id = 4 /\ slice_to ct 5 = b :: id /\ slice_from ct 5 = rest.
Proof.
  intros L. destruct ct as [|b t]; [cbn in L; lia|]. rewrite len_cons in L. destruct (split_at t 4 ltac:(lia)) as (id & rest & -> & L4). exists b, id, rest. split; [reflexivity|]. split; [exact L4|].
  change (b :: id ++ rest) with ((b :: id) ++ rest). split; [apply slice_to_app | apply slice_from_app]; rewrite len_cons; lia.
Qed.

Lemma header_refuses ks b id : len id = 4 -> only (fun e => b <> x00 /\ e = BadVersionError (ord b) \/ b = x00 /\ e = KeyNotFoundError (Base64WSEncode id)) (ParseHeader ks (b :: id)).
Proof.
  intros L e. unfold ParseHeader. rewrite index_0_cons. cbn [bind]. destruct (Z.eqb_spec (ord b) VERSION) as [E|E]; cbn [negb].
  - assert (B : b = x00) by (apply ord_inj; exact E). rewrite slice_from_1_cons. unfold GetKey_hash. destruct (assoc _ _ _); [discriminate|]. intros H. apply Raise_inj in H as <-. right. split; [exact B | reflexivity].
  - intros H. apply Raise_inj in H as <-. left. split; [|reflexivity]. intros ->. apply E. reflexivity.
Qed.

Theorem C86_aes_sentences : forall ks ct e x, reached ks -> ks_type ks = AES -> Decrypt_m ks ct None = Refused e x ->
  (len ct < 5 /\ exists text, x = Some text /\ sentence "Input of length " (len ct) " is too short to be valid ciphertext." text) \/
  (exists b id rest, ct = b :: id ++ rest /\ len id = 4 /\
    ((b <> x00 /\ exists text, x = Some text /\ sentence "Received a bad version number: " (ord b) "" text) \/
     (b = x00 /\ x = Some (bs "Key with hash_val identifier " ++ Base64WSEncode id ++ bs " not found.")) \/
     (len rest < 36 /\ exists text, x = Some text /\ sentence "Input of length " (len rest) " is too short to be valid ciphertext." text) \/
     (36 <= len rest /\ x = Some (bs "Invalid ciphertext signature")) \/
     (36 <= len rest /\ x = None /\ In e [ValueError; IndexError]))).
Proof.
  intros ks ct e x R T H. unfold Decrypt_m in H. cbn [apply_codec tell mbind] in H. change HEADER_SIZE with 5 in H. destruct (len ct <? 5) eqn:EL.
  - left. split; [lia|]. injection H as <- <-. eexists. split; [reflexivity|]. exists (int_to_str (len ct)). split; [apply decimal_int; unfold len; lia | reflexivity].
  - right. destruct (cut5 ct ltac:(lia)) as (b & id & rest & EC & L4 & S1 & S2). exists b, id, rest. split; [exact EC|]. split; [exact L4|]. rewrite S1 in H. apply mbind_Refused in H as [H | (k & HK & H)].
    + apply tell_Refused in H as [H ->]. destruct (header_refuses ks b id L4 e H) as [(NB & ->) | (-> & ->)].
      * left. split; [exact NB|]. eexists. split; [reflexivity|]. exists (int_to_str (ord b)). split; [apply decimal_int; pose proof (ord_range b); lia|]. change (bs "") with (@nil byte). rewrite app_nil_r. reflexivity.
      * right. left. split; reflexivity.
    + apply tell_Fine in HK. right. right. pose proof (header_key ks _ _ R HK) as KT. rewrite T in KT. destruct k as [a|a|a|a|a|a]; try discriminate KT. cbn [key_Decrypt_m key_Decrypt] in H. apply tell_Refused in H as [H ->].
      assert (HH : exists h, aes_hash_id a = Ok h).
      { pose proof (reached_inv ks R) as I. unfold ParseHeader in HK. rewrite index_0_cons in HK. cbn [bind] in HK. destruct (negb _); [discriminate|]. apply (proj1 (GetKey_hash_spec ks _ I)) in HK as (HH & _). eexists. exact HH. }
      destruct HH as (h & HH). unfold aes_hash_id in HH. apply bind_Ok in HH as (kb & EKB & HH). apply bind_Ok in HH as (hb & EHB & _).
      unfold AesKey_Decrypt in H. cbv zeta in H. change HEADER_SIZE with 5 in H. rewrite S2 in H. change (block_size + HLEN) with 36 in H. destruct (len rest <? 36) eqn:E36.
      * left. split; [lia|]. apply Raise_inj in H as <-. eexists. split; [reflexivity|]. exists (int_to_str (len rest)). split; [apply decimal_int; unfold len; lia | reflexivity].
      * right. rewrite (HmacKey_Verify_ok _ _ _ _ EHB) in H. cbn [bind] in H. destruct (negb _); [left; apply Raise_inj in H as <-; split; [lia | reflexivity]|]. right. split; [lia|]. rewrite EKB in H. cbn [bind] in H.
        assert (V : only (fun e => In e [ValueError; IndexError]) (let* c := AES_new kb (slice_to rest block_size) in let* (plain, _) := cipher_decrypt c (slice rest block_size (- HLEN)) in UnPad plain)).
        { apply only_bind; [unfold AES_new; repeat only1|]. intros c. apply only_bind; [unfold cipher_decrypt; repeat only1|]. intros [p c']. unfold UnPad, index. repeat only1. }
        pose proof (V e H) as VE. split; [|exact VE]. destruct VE as [<- | [<- | []]]; reflexivity.
Qed.
Print Assumptions C86_aes_sentences.

Theorem C86_verify_sentences : forall ks data sig e x, reached ks -> Verify_m ks data sig None = Refused e x ->
  (len sig < 5 /\ exists text, x = Some text /\ sentence "Input of length " (len sig) " is too short to be valid signature." text) \/
  (exists b id rest, sig = b :: id ++ rest /\ len id = 4 /\
    ((b <> x00 /\ exists text, x = Some text /\ sentence "Received a bad version number: " (ord b) "" text) \/
     (b = x00 /\ x = Some (bs "Key with hash_val identifier " ++ Base64WSEncode id ++ bs " not found.")) \/
     (b = x00 /\ is_keyczar_error e = false /\ x = None))).
Proof.
  intros ks data sig e x R H. apply tell_Refused in H as [H ->]. unfold Verify in H. cbn [apply_codec bind] in H. change HEADER_SIZE with 5 in H. destruct (len sig <? 5) eqn:EL.
  - left. split; [lia|]. apply Raise_inj in H as <-. eexists. split; [reflexivity|]. exists (int_to_str (len sig)). split; [apply decimal_int; unfold len; lia | reflexivity].
  - right. destruct (cut5 sig ltac:(lia)) as (b & id & rest & EC & L4 & S1 & S2). exists b, id, rest. split; [exact EC|]. split; [exact L4|]. rewrite S1, S2 in H. unfold InternalVerify in H.
    destruct (ParseHeader ks (b :: id)) as [k|e0] eqn:HK; cbn [bind] in H.
    + right. right. pose proof (reached_inv ks R) as I. unfold ParseHeader in HK. rewrite index_0_cons in HK. cbn [bind] in HK. destruct (Z.eqb_spec (ord b) VERSION) as [EB|EB]; cbn [negb] in HK; [|discriminate].
      split; [apply ord_inj; exact EB|]. apply (proj1 (GetKey_hash_spec ks _ I)) in HK as (HH & _). cbn [PackByteArray bind] in H.
      assert (V : is_keyczar_error e = false).
      { assert (D : forall kk, DsaPublicKey_Verify kk (data ++ [] ++ VERSION_BYTE) rest = Raise e -> is_keyczar_error e = false).
        { intros kk HD. unfold DsaPublicKey_Verify in HD. destruct (ParseDsaSig rest) as [[r q]|e1]; [discriminate|]. destruct (is_keyczar_error e1) eqn:E; [discriminate|]. apply Raise_inj in HD as <-. exact E. }
        destruct k as [k|k|k|k|k|k]; cbn [key_Verify] in H; try discriminate H; try (apply Raise_inj in H as <-; reflexivity); try (apply (D _ H)).
        cbn [key_hash_id] in HH. unfold hmac_hash_id in HH. apply bind_Ok in HH as (hb & EHB & _). rewrite (HmacKey_Verify_ok _ _ _ _ EHB) in H. discriminate. }
      split; [exact V|]. destruct e; try discriminate V; reflexivity.
    + apply Raise_inj in H as ->. destruct (header_refuses ks b id L4 e HK) as [(NB & ->) | (-> & ->)].
      * left. split; [exact NB|]. eexists. split; [reflexivity|]. exists (int_to_str (ord b)). split; [apply decimal_int; pose proof (ord_range b); lia|]. change (bs "") with (@nil byte). rewrite app_nil_r. reflexivity.
      * right. left. split; reflexivity.
Qed.
Print Assumptions C86_verify_sentences.

(** ** RSA private keys *)

(** REFUTED for RSA: the text tells what the number in the ciphertext decrypts to: its length in bytes, if that is below 42;
    otherwise whether the hash in its data block is right, and whether the byte before the message is.  For every key and every ciphertext. *)
Lemma oaep_text k s block : 42 <= len s -> k <= 2 ^ 32 -> len s <= k -> block = (if 1 <? k - len s then rep (k - len s - 1) x00 ++ s else s) ->
  exists seed db, len seed = 20 /\ len db = len block - 20 /\ masked seed db block /\
    oaep_decode_m k s = if negb (str_eqb (firstn 20 db) (sha1 [])) then complain (bs "OAEP Decoding Error - hash_id is invalid")
                        else match lstrip x00 (skipn 20 db) with [] => Refused IndexError None | c :: m => if beqb c x01 then Fine m else complain (bs "OAEP Decoding Error - expected a 1 value") end.
Proof.
  intros L42 HK HL EB. assert (LB : 42 <= len block <= k).
  { rewrite EB. destruct (Z.ltb_spec 1 (k - len s)); [rewrite len_app, len_rep by lia|]; lia. }
  unfold oaep_decode_m. change HLEN with 20. destruct (Z.ltb_spec (len s) (2 * 20 + 2)); [lia|]. cbv zeta. rewrite <- EB. clear EB HL L42.
  rewrite !slice_to_firstn, !slice_from_skipn by lia. change (Z.to_nat 20) with 20%nat.
  set (ms := firstn 20 block). set (mdb := skipn 20 block). assert (LM : len ms = 20) by (unfold ms, len in *; rewrite firstn_length; lia). assert (LD : len mdb = len block - 20) by (unfold mdb, len in *; rewrite skipn_length; lia).
  destruct (MGF_total mdb 20 ltac:(lia)) as (sm & ESM). pose proof (MGF_len mdb 20 sm ltac:(lia) ESM) as LSM. unfold MGF_m. rewrite ESM. cbn [mbind].
  set (seed := Xor ms sm). assert (LS : len seed = 20) by (unfold seed; rewrite len_Xor; lia).
  destruct (MGF_total seed (len mdb) ltac:(lia)) as (mask & EM). pose proof (MGF_len seed (len mdb) mask ltac:(lia) EM) as LMa. rewrite EM. cbn [mbind].
  set (db := Xor mdb mask). assert (LDB : len db = len mdb) by (unfold db; rewrite len_Xor; lia).
  exists seed, db. split; [exact LS|]. split; [lia|]. split.
  - exists mask, sm. rewrite LDB. split; [exact EM|]. assert (E1 : Xor db mask = mdb) by (apply Xor_cancel; lia). assert (E2 : Xor seed sm = ms) by (apply Xor_cancel; lia). rewrite E1, E2. split; [exact ESM|]. unfold ms, mdb. symmetry. apply firstn_skipn.
  - rewrite (slice_to_firstn db), (slice_from_skipn db) by lia. change (Z.to_nat 20) with 20%nat. change (Hash [[]]) with (sha1 []). destruct (str_eqb (firstn 20 db) (sha1 [])); cbn [negb]; [|reflexivity].
    destruct (lstrip x00 (skipn 20 db)) as [|c m]; [reflexivity|]. rewrite index_0_cons. cbn [tell mbind]. rewrite slice_from_1_cons. destruct (beqb c x01); reflexivity.
Qed.

Lemma Decrypt_m_number ks ct k m : ParseHeader ks (slice_to ct 5) = Ok (KRsaPriv k) -> 5 <= len ct -> rsa_private (rs_key k) (number_of ct) = Ok m ->
  Decrypt_m ks ct None = oaep_decode_m (num_bytes (rn_n (rn_pub (rs_key k)))) (long_to_bytes m).
Proof.
  intros HP L HR. unfold Decrypt_m. cbn [apply_codec tell mbind]. change HEADER_SIZE with 5. destruct (Z.ltb_spec (len ct) 5); [lia|]. rewrite HP. cbn [tell mbind key_Decrypt_m]. unfold RsaPrivateKey_Decrypt_m. change HEADER_SIZE with 5.
  assert (DS : rsa_decrypt_str (rs_key k) (slice_from ct 5) = Ok (long_to_bytes m)).
  { unfold rsa_decrypt_str. rewrite bytes_to_long_eq, BytesToLong_val, slice_from_skipn by lia. change (be_val (skipn (Z.to_nat 5) ct)) with (number_of ct). rewrite HR. reflexivity. }
  rewrite DS. reflexivity.
Qed.

Theorem C86_rsa_text_refuted : forall size ks k ct m, In size rsa_sizes -> rsa_key_ok size k -> 5 <= len ct -> ParseHeader ks (slice_to ct 5) = Ok (KRsaPriv k) -> number_of ct < rn_n (rn_pub (rs_key k)) -> opens_to k ct m ->
  (m < 256 ^ 41 -> exists n text, 1 <= n /\ m < 256 ^ n /\ (n = 1 \/ 256 ^ (n - 1) <= m) /\ sentence "OAEP Decoding Error - encoded_message is too small: " n "" text /\
     Decrypt_m ks ct None = Refused KeyczarError (Some text)) /\
  (256 ^ 41 <= m -> exists block seed db, be_val block = m /\ len seed = 20 /\ masked seed db block /\
     (Decrypt_m ks ct None = Refused KeyczarError (Some (bs "OAEP Decoding Error - hash_id is invalid")) <-> forall rest, db <> sha1 [] ++ rest) /\
     (Decrypt_m ks ct None = Refused KeyczarError (Some (bs "OAEP Decoding Error - expected a 1 value")) <->
        exists j b rest, b <> x00 /\ b <> x01 /\ db = sha1 [] ++ repeat x00 j ++ b :: rest)).
Proof.
  intros size ks k ct m HS HOK L5 HP HN HO. pose proof HOK as [HPr HB _ _]. pose proof (rsa_bits _ _ _ _ _ _ _ HPr) as Hbits. destruct (num_bytes_size size _ HS Hbits) as [NB Hn].
  destruct (rsa_sizes_256 size HS) as (HK1 & HK2 & HK).
  assert (HC : 0 <= number_of ct < rn_n (rn_pub (rs_key k))) by (unfold number_of in *; pose proof (be_val_bound (skipn 5 ct)); lia).
  destruct (rsa_signs size (rs_key k) _ HPr HC) as (m' & EM & Hm & ES). assert (EQ : m' = m) by (apply (opens_unique size k ct _ _ HOK); [split; assumption | exact HO]). subst m'.
  rewrite (Decrypt_m_number ks ct k m HP L5 EM), NB.
  assert (BL : forall j, 0 <= j -> 0 < m -> (len (long_to_bytes m) <= j <-> m < 256 ^ j)).
  { intros j HJ Hm0. unfold long_to_bytes. destruct (Z.eqb_spec m 0); [lia|]. apply len_bound_BigInt; lia. }
  split.
  - intros HM. assert (LL : len (long_to_bytes m) <= 41 /\ 1 <= len (long_to_bytes m) /\ m < 256 ^ len (long_to_bytes m) /\ (len (long_to_bytes m) = 1 \/ 256 ^ (len (long_to_bytes m) - 1) <= m)).
    { destruct (Z.eq_dec m 0) as [->|NZ]; [change (len (long_to_bytes 0)) with 1; lia|]. assert (P : 0 < m) by lia. set (n := len (long_to_bytes m)) in *. assert (N0 : 0 <= n) by (unfold n, len; lia).
      assert (N1 : 1 <= n). { destruct (Z.le_gt_cases 1 n) as [G|G]; [exact G|]. assert (X : m < 256 ^ 0) by (apply BL; lia). change (256 ^ 0) with 1 in X. lia. }
      split; [apply BL; lia|]. split; [exact N1|]. split; [apply BL; lia|]. right. destruct (Z.le_gt_cases (256 ^ (n - 1)) m) as [G|G]; [exact G|]. assert (X : n <= n - 1) by (apply BL; lia). lia. }
    destruct LL as (L41 & L1 & L2 & L3). exists (len (long_to_bytes m)), (bs "OAEP Decoding Error - encoded_message is too small: " ++ int_to_str (len (long_to_bytes m))). split; [exact L1|]. split; [exact L2|]. split; [exact L3|]. split.
    + exists (int_to_str (len (long_to_bytes m))). split; [apply decimal_int; lia|]. change (bs "") with (@nil byte). rewrite app_nil_r. reflexivity.
    + unfold oaep_decode_m. change HLEN with 20. destruct (Z.ltb_spec (len (long_to_bytes m)) (2 * 20 + 2)); [reflexivity | lia].
  - intros HM. assert (P41 : 0 < 256 ^ 41) by (apply Z.pow_pos_nonneg; lia). assert (Hm0 : 0 < m) by lia.
    assert (L42 : 42 <= len (long_to_bytes m)) by (destruct (Z.le_gt_cases 42 (len (long_to_bytes m))) as [G|G]; [exact G|]; exfalso; assert (X : m < 256 ^ 41) by (apply BL; lia); lia).
    assert (LK : len (long_to_bytes m) <= size / 8) by (apply BL; lia).
    set (block := if 1 <? size / 8 - len (long_to_bytes m) then rep (size / 8 - len (long_to_bytes m) - 1) x00 ++ long_to_bytes m else long_to_bytes m).
    destruct (oaep_text (size / 8) (long_to_bytes m) block L42 ltac:(lia) LK eq_refl) as (seed & db & LSd & LDb & HMk & ED).
    assert (LBk : 42 <= len block). { unfold block. destruct (Z.ltb_spec 1 (size / 8 - len (long_to_bytes m))); [rewrite len_app, len_rep by lia|]; lia. }
    exists block, seed, db. split; [unfold block; destruct (1 <? size / 8 - len (long_to_bytes m)); rewrite ?be_val_rep0; apply be_long; lia|]. split; [exact LSd|]. split; [exact HMk|]. rewrite ED.
    assert (L20 : List.length (sha1 []) = 20%nat) by (pose proof (len_Hash [[]]) as X; change (Hash [[]]) with (sha1 []) in X; unfold len in X; lia).
    assert (SP : forall t, db = sha1 [] ++ t -> firstn 20 db = sha1 [] /\ skipn 20 db = t).
    { intros t ->. rewrite <- L20. rewrite firstn_app, skipn_app, firstn_all, skipn_all, Nat.sub_diag, firstn_O, app_nil_r. split; reflexivity. }
    assert (SS : str_eqb (sha1 []) (sha1 []) = true) by (apply str_eqb_eq; reflexivity).
    assert (ST : forall j t, lstrip x00 (repeat x00 j ++ t) = lstrip x00 t) by (intros j t; induction j as [|j IH]; [reflexivity|]; cbn [repeat app lstrip]; change (beqb x00 x00) with true; exact IH).
    split; split.
    + intros H rest E. destruct (SP _ E) as [E1 _]. rewrite E1, SS in H. cbn [negb] in H. destruct (lstrip x00 (skipn 20 db)) as [|c t]; [discriminate|]. destruct (beqb c x01); [discriminate|]. unfold complain in H. discriminate H.
    + intros H. destruct (str_eqb (firstn 20 db) (sha1 [])) eqn:E; cbn [negb]; [|reflexivity]. apply str_eqb_eq in E. exfalso. apply (H (skipn 20 db)). rewrite <- E. symmetry. apply firstn_skipn.
    + destruct (str_eqb (firstn 20 db) (sha1 [])) eqn:E; cbn [negb]; [|unfold complain; intros H; discriminate H]. apply str_eqb_eq in E. destruct (lstrip_decomp x00 (skipn 20 db)) as (j & HJ). destruct (lstrip x00 (skipn 20 db)) as [|c t] eqn:ELs; [discriminate|].
      destruct (beqb c x01) eqn:EC; [discriminate|]. intros _. exists j, c, t. split; [|split].
      * intros ->. clear -ELs. revert ELs. induction (skipn 20 db) as [|a l IH]; [discriminate|]. cbn [lstrip]. destruct (beqb a x00) eqn:EA; [exact IH|]. intros H. injection H as H _. rewrite H in EA. discriminate EA.
      * apply beqb_neq. exact EC.
      * rewrite <- E, <- HJ. symmetry. apply firstn_skipn.
    + intros (j & b & rest & N0 & N1 & E). destruct (SP _ E) as [E1 E2]. rewrite E1, E2, SS. cbn [negb]. rewrite ST. cbn [lstrip]. apply beqb_neq in N0, N1. rewrite N0, N1. reflexivity.
Qed.
Print Assumptions C86_rsa_text_refuted.

(** Three ciphertexts of one length and header for the key set of C77, with three texts. *)
Example C86_rsa_case : exists a b c, len a = len b /\ len b = len c /\ slice_to a 5 = slice_to b 5 /\ slice_to b 5 = slice_to c 5 /\
  Decrypt_m demo_rsa_ks a None = Refused KeyczarError (Some (bs "OAEP Decoding Error - encoded_message is too small: 1")) /\
  Decrypt_m demo_rsa_ks b None = Refused KeyczarError (Some (bs "OAEP Decoding Error - hash_id is invalid")) /\
  Decrypt_m demo_rsa_ks c None = Refused KeyczarError (Some (bs "OAEP Decoding Error - expected a 1 value")).
Proof.
  assert (MU : forall m, 0 <= m < rn_n (rn_pub (rs_key demo_rsa)) -> exists ct, len ct = 69 /\ slice_to ct 5 = demo_header /\ Decrypt_m demo_rsa_ks ct None = oaep_decode_m 64 (long_to_bytes m)).
  { intros m Hm. destruct (made_up 512 demo_rsa demo_header m (or_introl eq_refl) C19_case eq_refl Hm) as (ct & L & H & _ & D). change (5 + 512 / 8) with 69 in L. exists ct. split; [exact L|]. split; [exact H|].
    rewrite (Decrypt_m_number demo_rsa_ks ct demo_rsa m), demo_num_bytes; [reflexivity | rewrite H; exact demo_header_finds | lia | exact D]. }
  destruct (MU 2) as (a & La & Ha & Da); [in_range|]. destruct (MU (be_val (rep 63 x02))) as (b & Lb & Hb & Db); [in_range|]. destruct (MU (be_val block_a)) as (c & Lc & Hc & Dc); [in_range|].
  exists a, b, c. do 4 (split; [congruence|]). rewrite Da, Db, Dc. split; [|split]; vm_compute; reflexivity.
Qed.

(** A set of AES keys and one of HMAC keys, and the texts they give. *)
Definition aes_named : str := Eval vm_compute in match primary_key aes_set with Ok k => match key_header k with Ok h => h | Raise _ => [] end | Raise _ => [] end.
Example C86_case : reached aes_set /\ ks_type aes_set = AES /\ reached hmac_set /\ ks_type hmac_set <> RSA_PRIV /\
  Decrypt_m aes_set (bs "abc") None = Refused (ShortCiphertextError 3) (Some (bs "Input of length 3 is too short to be valid ciphertext.")) /\
  Decrypt_m aes_set (bs "abcde") None = Refused (BadVersionError 97) (Some (bs "Received a bad version number: 97")) /\
  Decrypt_m aes_set (x00 :: bs "abcd") None = Refused (KeyNotFoundError (bs "YWJjZA")) (Some (bs "Key with hash_val identifier YWJjZA not found.")) /\
  Decrypt_m hmac_set (x00 :: bs "abcd") None = Refused (KeyNotFoundError (bs "YWJjZA")) (Some (bs "Key with hash_val identifier YWJjZA not found.")) /\
  Decrypt_m aes_set (aes_named ++ rep 35 x00) None = Refused (ShortCiphertextError 35) (Some (bs "Input of length 35 is too short to be valid ciphertext.")) /\
  Decrypt_m aes_set (aes_named ++ rep 36 x00) None = Refused InvalidSignatureError (Some (bs "Invalid ciphertext signature")) /\
  Verify_m hmac_set (bs "data") [x00] None = Refused (ShortSignatureError 1) (Some (bs "Input of length 1 is too short to be valid signature.")).
Proof.
  split; [exists Crypter; eexists _, _, []; split; [exact aes_set_opens | reflexivity]|]. split; [reflexivity|].
  split; [exists GenericKeyczar; eexists _, _, []; split; [exact hmac_set_opens | reflexivity]|]. split; [vm_compute; discriminate|].
  repeat (split; [vm_compute; reflexivity|]). vm_compute. reflexivity.
Qed.
