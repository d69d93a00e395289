(** * Props_Steps: property C76 (what the executed steps give away). *)
From Coq Require Import Strings.String.
From Coq Require Import List ZArith NArith Bool Lia ZifyBool ZifyNat ZifyN.
From Coq.Init Require Import Byte.
From Verif Require Import PyBase PyFacts Base64 Base64Facts Sha1 Util UtilFacts Aes AesFacts Json KeyInfo SymKeys SymFacts AsymKeys AsymSpec AsymFacts Keys KeysFacts
  KeyData Keyczar KeyRing KeyczarFacts ErrFacts Props_Keyset Props_Asym Mock Session Props_Session Props_Sign Props_Disk Steps.
Import ListNotations.
Local Open Scope Z_scope.
Ltac Zify.zify_post_hook ::= idtac.

(** ** The instrumented functions are the functions of the model *)

Lemma result_bind {A B} (t : traced A) (k : A -> traced B) : result (tbind t k) = (let* a := result t in result (k a)).
Proof. unfold tbind, result. destruct (snd t); reflexivity. Qed.
Lemma result_after {A} l (t : traced A) : result (after l t) = result t.
Proof. reflexivity. Qed.
Lemma result_done {A} (r : res A) : result (tdone r) = r.
Proof. reflexivity. Qed.

Lemma result_loop l : forall r, result (compare_loop_t l r) = Ok (fold_left (fun result p => Z.lor result (Z.lxor (ord (fst p)) (ord (snd p)))) l r).
Proof. induction l as [|[x y] l IH]; intros r; [reflexivity|]. cbn [compare_loop_t fold_left fst snd]. rewrite result_after. apply IH. Qed.

Lemma result_compare mac sig : result (VerifySignedData_t mac sig) = Ok (VerifySignedData mac sig).
Proof.
  unfold VerifySignedData_t, VerifySignedData. rewrite result_after. destruct (negb _); [reflexivity|].
  rewrite result_after, result_bind, result_loop. reflexivity.
Qed.

Lemma result_hmac k msg sig : result (HmacKey_Verify_t k msg sig) = HmacKey_Verify k msg sig.
Proof.
  unfold HmacKey_Verify_t, HmacKey_Verify, HmacKey_Sign_t. rewrite result_after, result_bind, result_after, result_done.
  destruct (HmacKey_Sign k msg) as [mac|e]; cbn [bind]; [apply result_compare | reflexivity].
Qed.

Lemma result_aes k s : result (AesKey_Decrypt_t k s) = AesKey_Decrypt k s.
Proof.
  unfold AesKey_Decrypt_t, AesKey_Decrypt. rewrite result_after. destruct (_ <? _); [reflexivity|].
  rewrite result_after, result_bind, result_hmac. destruct (HmacKey_Verify _ _ _) as [[|]|e]; cbn [bind negb]; try reflexivity.
  rewrite result_after, result_bind, result_done. destruct (aes_bytes k) as [kb|e]; cbn [bind]; [|reflexivity].
  rewrite result_bind, result_done. destruct (AES_new kb _) as [c|e]; cbn [bind]; [|reflexivity].
  rewrite result_bind, result_after, result_done. destruct (cipher_decrypt c _) as [[plain c']|e]; cbn [bind fst]; [|reflexivity].
  unfold UnPad_t, UnPad. rewrite !result_after, result_bind, result_done. destruct (index plain (-1)); reflexivity.
Qed.

Lemma result_oaep k s : result (oaep_decode_t k s) = oaep_decode k s.
Proof.
  unfold oaep_decode_t, oaep_decode. rewrite result_after. destruct (_ <? 2 * HLEN + 2); [reflexivity|].
  rewrite result_after, result_bind, result_after, result_done. destruct (MGF _ HLEN) as [m|e]; cbn [bind]; [|reflexivity].
  rewrite result_after, result_bind, result_after, result_done. destruct (MGF _ _) as [m2|e]; cbn [bind]; [|reflexivity].
  rewrite result_after. destruct (negb (str_eqb _ _)); [reflexivity|].
  rewrite result_after, result_bind, result_done. destruct (index _ 0) as [c|e]; cbn [bind]; [|reflexivity]. destruct (negb _); reflexivity.
Qed.

Lemma result_header ks h : result (ParseHeader_t ks h) = ParseHeader ks h.
Proof.
  unfold ParseHeader_t, ParseHeader. rewrite result_after, result_bind, result_done. destruct (index h 0) as [c|e]; cbn [bind]; [|reflexivity].
  rewrite result_after. destruct (negb _); [reflexivity|]. rewrite result_after. destruct (GetKey_hash _ _); reflexivity.
Qed.

Theorem C76_same_functions :
  (forall mac sig, result (VerifySignedData_t mac sig) = Ok (VerifySignedData mac sig)) /\
  (forall ks s d, result (Decrypt_t ks s d) = Decrypt ks s d) /\
  (forall ks data s d, result (Verify_t ks data s d) = Verify ks data s d).
Proof.
  split; [exact result_compare|]. split.
  - intros ks s d. unfold Decrypt_t, Decrypt. rewrite result_after, result_bind, result_done. destruct (apply_codec d s) as [b|e]; cbn [bind]; [|reflexivity].
    rewrite result_after. destruct (_ <? HEADER_SIZE); [reflexivity|]. rewrite result_after, result_bind, result_header.
    destruct (ParseHeader _ _) as [k|e]; cbn [bind]; [|reflexivity]. rewrite result_after. destruct k; try reflexivity; cbn [key_Decrypt_t key_Decrypt]; [apply result_aes|].
    unfold RsaPrivateKey_Decrypt_t, RsaPrivateKey_Decrypt. rewrite result_after, result_bind, result_after, result_done.
    destruct (rsa_decrypt_str _ _) as [x|e]; cbn [bind]; [|reflexivity]. rewrite result_after. apply result_oaep.
  - intros ks data s d. unfold Verify_t, Verify. rewrite result_after, result_bind, result_done. destruct (apply_codec d s) as [b|e]; cbn [bind]; [|reflexivity].
    rewrite result_after. destruct (_ <? HEADER_SIZE); [reflexivity|]. rewrite result_after. unfold InternalVerify_t, InternalVerify. rewrite result_after, result_bind, result_header.
    destruct (ParseHeader _ _) as [k|e]; cbn [bind]; [|reflexivity]. rewrite result_after, result_bind, result_done. destruct (PackByteArray None) as [p|e]; cbn [bind]; [|reflexivity].
    destruct k; try reflexivity. apply result_hmac.
Qed.
Print Assumptions C76_same_functions.

(** ** Comparing tags *)

Lemma steps_after {A} l (t t' : traced A) : steps t = steps t' -> steps (after l t) = steps (after l t').
Proof. unfold steps, after. cbn [fst]. congruence. Qed.

Lemma steps_loop l : forall l' r r', List.length l = List.length l' -> steps (compare_loop_t l r) = steps (compare_loop_t l' r').
Proof.
  induction l as [|[x y] l IH]; intros [|[x' y'] l'] r r' H; try discriminate; [reflexivity|].
  cbn [compare_loop_t]. apply steps_after, IH. cbn in H. lia.
Qed.

Lemma steps_bind {A B} (t t' : traced A) (k k' : A -> traced B) : steps t = steps t' ->
  (forall a a', result t = Ok a -> result t' = Ok a' -> steps (k a) = steps (k' a')) ->
  (forall a e, result t = Ok a -> result t' = Raise e -> False) -> (forall a e, result t = Raise e -> result t' = Ok a -> False) ->
  steps (tbind t k) = steps (tbind t' k').
Proof.
  unfold steps, result, tbind. intros H1 H2 H3 H4. destruct (snd t) as [a|e], (snd t') as [a'|e']; cbn [fst].
  - rewrite H1, (H2 a a'); reflexivity.
  - exfalso. apply (H3 a e'); reflexivity.
  - exfalso. apply (H4 a' e); reflexivity.
  - exact H1.
Qed.

(** Which steps the comparison executes depends on the lengths of the tags only: neither the
    position of the first difference nor the outcome shows. *)
Theorem C76_tag_comparison : forall mac mac' sig sig', len mac = len mac' -> len sig = len sig' ->
  steps (VerifySignedData_t mac sig) = steps (VerifySignedData_t mac' sig').
Proof.
  intros mac mac' sig sig' H1 H2. unfold VerifySignedData_t. apply steps_after. rewrite H1, H2. destruct (negb _); [reflexivity|].
  apply steps_after, steps_bind.
  - apply steps_loop. rewrite !combine_length. unfold len in *. lia.
  - reflexivity.
  - intros a e _. rewrite result_loop. discriminate.
  - intros a e. rewrite result_loop. discriminate.
Qed.
Print Assumptions C76_tag_comparison.

Lemma steps_hmac k m m' s s' : len m = len m' -> len s = len s' -> steps (HmacKey_Verify_t k m s) = steps (HmacKey_Verify_t k m' s').
Proof.
  intros H1 H2. unfold HmacKey_Verify_t, HmacKey_Sign_t, HmacKey_Sign. apply steps_after. rewrite H1.
  destruct (hmac_bytes k) as [b|e]; cbn [bind]; [|reflexivity]. apply steps_bind; [reflexivity| |intros a e _ E; discriminate E | intros a e E; discriminate E].
  intros a a' E E'. apply Ok_inj in E as <-. apply Ok_inj in E' as <-. apply C76_tag_comparison; [rewrite !len_hmac; reflexivity | exact H2].
Qed.

Lemma len_slice_same {A} (l l' : list A) a b : len l = len l' -> len (slice l a b) = len (slice l' a b).
Proof. intros H. unfold slice. rewrite H. unfold len in *. rewrite !firstn_length, !skipn_length. lia. Qed.
Lemma len_from_same {A} (l l' : list A) a : len l = len l' -> len (slice_from l a) = len (slice_from l' a).
Proof. intros H. unfold slice_from. rewrite H. apply len_slice_same. exact H. Qed.

(** Verifying with an HMAC set: data and signatures of the same lengths with the same header take
    the same steps, whether the signature is right or wrong. *)
Theorem C76_hmac_signatures : forall ks dec k data data' t t' sig sig', len data = len data' -> len t = len t' ->
  apply_codec dec t = Ok sig -> apply_codec dec t' = Ok sig' -> len sig = len sig' ->
  slice_to sig 5 = slice_to sig' 5 -> ParseHeader ks (slice_to sig 5) = Ok (KHmac k) ->
  steps (Verify_t ks data t dec) = steps (Verify_t ks data' t' dec).
Proof.
  intros ks dec k data data' t t' sig sig' HD HT E E' HS HH HP. unfold Verify_t. rewrite HT, E, E'. apply steps_after.
  apply steps_bind; [reflexivity| |intros a e _ X; discriminate X | intros a e X; discriminate X].
  intros a a' X X'. apply Ok_inj in X as <-. apply Ok_inj in X' as <-. apply steps_after. rewrite HS. destruct (_ <? HEADER_SIZE); [reflexivity|].
  apply steps_after. change HEADER_SIZE with 5. unfold InternalVerify_t. rewrite <- HH. apply steps_after.
  apply steps_bind; [reflexivity| |intros a e; congruence | intros a e; congruence].
  intros a a'. rewrite result_header, HP. intros X X'. apply Ok_inj in X as <-. apply Ok_inj in X' as <-. apply steps_after.
  apply steps_bind; [reflexivity| |intros a e; congruence | intros a e; congruence].
  intros a a' X X'. rewrite X in X'. apply Ok_inj in X' as <-. cbn [key_Verify_t]. apply steps_hmac; [rewrite !len_app, HD; reflexivity | apply len_from_same, HS].
Qed.
Print Assumptions C76_hmac_signatures.

(** ** Decrypting with AES *)

(** Errors other than that of a wrong tag. *)
Definition nosig {A} (r : res A) : Prop := r <> Raise InvalidSignatureError.
Lemma nosig_bind {A B} (r : res A) (f : A -> res B) : nosig r -> (forall a, nosig (f a)) -> nosig (bind r f).
Proof. unfold nosig. intros Hr Hf. destruct r as [a|e]; cbn [bind]; [apply Hf|]. intros C. apply Raise_inj in C as ->. apply Hr. reflexivity. Qed.
Lemma nosig_mapM {A B} (f : A -> res B) l : (forall a, nosig (f a)) -> nosig (mapM f l).
Proof.
  intros H. induction l as [|a l IH]; cbn [mapM]; [discriminate|]. apply nosig_bind; [apply H|]. intros b. apply nosig_bind; [exact IH|]. discriminate.
Qed.
Lemma nosig_a2b s : forall q b c, nosig (a2b_loop s q b c).
Proof.
  induction s as [|a s IH]; intros q b c; cbn [a2b_loop]; [destruct (_ =? _); discriminate|].
  destruct (beqb a "="%byte); [destruct (_ || _); [apply IH | discriminate]|].
  destruct (b64_val a); [|apply IH]. cbv zeta. destruct (8 <=? b + 6); [|apply IH].
  apply nosig_bind; [apply IH | discriminate].
Qed.
Lemma nosig_b64u u : nosig (Base64WSDecode_u u).
Proof.
  unfold Base64WSDecode_u. apply nosig_bind.
  - unfold str_of_text. apply nosig_mapM. intros a. destruct (a <? 128)%N; [destruct (Byte.of_N a)|]; discriminate.
  - intros s. unfold decode_stripped. cbv zeta. destruct (_ =? 1); [discriminate|].
    set (t := map _ _). pose proof (nosig_a2b t 0 0 0) as Q. unfold a2b_base64. unfold nosig in *. destruct (a2b_loop t 0 0 0) as [x|e]; [discriminate|].
    destruct e; try discriminate. intros C. apply Q. reflexivity.
Qed.

Lemma nosig_unpad s : nosig (UnPad s).
Proof. unfold UnPad, index, nosig. destruct (_ <? 0); [discriminate|]. destruct (nth_error _ _); discriminate. Qed.

(** The part after the check of the tag. *)
Definition decrypted (k : aeskey) (iv ciph : str) : traced str :=
  let! kb := tdone (aes_bytes k) in
  let! c := tdone (AES_new kb iv) in
  let! out := after [InLibrary "decrypt" (len ciph)] (tdone (cipher_decrypt c ciph)) in
  after [InKeys 469] (UnPad_t (fst out)).

Lemma steps_unpad s s' : len s = len s' -> steps (UnPad_t s) = steps (UnPad_t s').
Proof.
  intros H. unfold UnPad_t. apply steps_after.
  assert (E : forall x : str, (exists a, index x (-1) = Ok a) <-> 0 < len x).
  { intros x. unfold index. change (-1 <? 0) with true. cbv iota. destruct (_ <? 0) eqn:EL; [split; [intros (a & C); discriminate C | lia]|].
    destruct (nth_error x (Z.to_nat (len x + -1))) as [a|] eqn:EN; [split; [lia | exists a; reflexivity]|]. apply nth_error_None in EN. unfold len in *. split; [intros (a & C); discriminate C | lia]. }
  apply steps_bind; [reflexivity | reflexivity | |]; rewrite !result_done; intros a e E1 E2.
  - assert (X : 0 < len s) by (apply E; exists a; exact E1). rewrite H in X. apply E in X as (b & X). congruence.
  - assert (X : 0 < len s') by (apply E; exists a; exact E2). rewrite <- H in X. apply E in X as (b & X). congruence.
Qed.

Lemma steps_decrypted k iv iv' ciph ciph' : len iv = len iv' -> len ciph = len ciph' -> steps (decrypted k iv ciph) = steps (decrypted k iv' ciph').
Proof.
  intros H1 H2. unfold decrypted. destruct (aes_bytes k) as [kb|e]; [|reflexivity].
  apply steps_bind; [reflexivity| |intros a e _ E; discriminate E | intros a e E; discriminate E]. intros a a' E E'. apply Ok_inj in E as <-. apply Ok_inj in E' as <-.
  assert (EN : forall a e, AES_new kb iv = Ok a -> AES_new kb iv' = Raise e -> False) by (intros a e; unfold AES_new; rewrite H1; destruct (_ && _); discriminate).
  assert (EN' : forall a e, AES_new kb iv = Raise e -> AES_new kb iv' = Ok a -> False) by (intros a e; unfold AES_new; rewrite H1; destruct (_ && _); discriminate).
  apply steps_bind; [reflexivity| |exact EN | exact EN']. intros c c' EC EC'. apply AES_new_ok in EC, EC'. rewrite H2.
  destruct (Z.eq_dec (len ciph' mod 16) 0) as [HM|HM].
  - destruct (cipher_decrypt_ok c' ciph' EC' HM) as (o' & x' & E' & _ & L'). rewrite <- H2 in HM. destruct (cipher_decrypt_ok c ciph EC HM) as (o & x & E & _ & L). rewrite E, E'.
    apply steps_bind; [reflexivity| |intros a e _ X; discriminate X | intros a e X; discriminate X]. intros a a' X X'. apply Ok_inj in X as <-. apply Ok_inj in X' as <-. cbn [fst].
    apply steps_after, steps_unpad. congruence.
  - unfold cipher_decrypt. rewrite H2. destruct (Z.eqb_spec (len ciph' mod 16) 0) as [C|_]; [contradiction|]. reflexivity.
Qed.

Lemma nosig_decrypted k iv ciph : nosig (result (decrypted k iv ciph)).
Proof.
  unfold decrypted. rewrite result_bind, result_done. apply nosig_bind; [apply nosig_b64u|]. intros kb.
  rewrite result_bind, result_done. apply nosig_bind; [unfold AES_new; destruct (_ && _); discriminate|]. intros c.
  rewrite result_bind, result_after, result_done. apply nosig_bind; [unfold cipher_decrypt; destruct (_ =? 0); [destruct (cbc_dec _ _ _ _)|]; discriminate|].
  intros [p c']. rewrite result_after. unfold UnPad_t. rewrite result_after, result_bind, result_done. apply nosig_bind; [unfold index; destruct (_ <? 0); [discriminate|]; destruct (nth_error _ _); discriminate | discriminate].
Qed.

Lemma steps_aes k a b : len a = len b ->
  (AesKey_Decrypt k a = Raise InvalidSignatureError <-> AesKey_Decrypt k b = Raise InvalidSignatureError) ->
  steps (AesKey_Decrypt_t k a) = steps (AesKey_Decrypt_t k b).
Proof.
  intros HL. rewrite <- !result_aes. unfold AesKey_Decrypt_t. rewrite !result_after. intros HV. apply steps_after.
  pose proof (len_from_same a b HEADER_SIZE HL) as L1. rewrite L1 in *. destruct (_ <? block_size + HLEN); [reflexivity|].
  rewrite !result_after in HV. apply steps_after.
  set (ia := slice_to (slice_from a HEADER_SIZE) block_size) in *. set (ib := slice_to (slice_from b HEADER_SIZE) block_size) in *.
  set (ca := slice (slice_from a HEADER_SIZE) block_size (- HLEN)) in *. set (cb := slice (slice_from b HEADER_SIZE) block_size (- HLEN)) in *.
  assert (LI : len ia = len ib) by (apply len_slice_same, L1). assert (LC : len ca = len cb) by (apply len_slice_same, L1).
  change (let! kb := tdone (aes_bytes k) in let! c := tdone (AES_new kb ia) in let! out := after [InLibrary "decrypt" (len ca)] (tdone (cipher_decrypt c ca)) in after [InKeys 469] (UnPad_t (fst out))) with (decrypted k ia ca) in *.
  change (let! kb := tdone (aes_bytes k) in let! c := tdone (AES_new kb ib) in let! out := after [InLibrary "decrypt" (len cb)] (tdone (cipher_decrypt c cb)) in after [InKeys 469] (UnPad_t (fst out))) with (decrypted k ib cb) in *.
  set (va := HmacKey_Verify_t (ak_hmac k) (slice_to a (- HLEN)) _) in *. set (vb := HmacKey_Verify_t (ak_hmac k) (slice_to b (- HLEN)) _) in *.
  assert (SV : steps va = steps vb) by (apply steps_hmac; [apply len_slice_same, HL | apply len_from_same, L1]).
  assert (RV : forall e, result va = Raise e <-> result vb = Raise e).
  { intros e. unfold va, vb. rewrite !result_hmac. unfold HmacKey_Verify, HmacKey_Sign. destruct (hmac_bytes (ak_hmac k)) as [h|e']; cbn [bind]; [split; discriminate | reflexivity]. }
  rewrite !result_bind in HV. apply steps_bind; [exact SV| | |].
  - intros x y EX EY. rewrite EX, EY in HV. cbn [bind] in HV.
    assert (D : forall i c, result (after [InKeys 468] (decrypted k i c)) <> Raise InvalidSignatureError) by (intros i c; apply nosig_decrypted).
    destruct x, y; cbn [negb] in *.
    + apply steps_after, steps_decrypted; assumption.
    + exfalso. apply (D ia ca). apply HV. reflexivity.
    + exfalso. apply (D ib cb). apply HV. reflexivity.
    + reflexivity.
  - intros x e EX EY. apply RV in EY. congruence.
  - intros x e EX EY. apply RV in EX. congruence.
Qed.

(** Decrypting with AES: ciphertexts of the same length and header take the same steps if both
    are refused for their tag, and if both are not; so a refusal tells nothing but itself. *)
Theorem C76_aes_ciphertexts : forall ks dec k t t' ct ct', len t = len t' ->
  apply_codec dec t = Ok ct -> apply_codec dec t' = Ok ct' -> len ct = len ct' ->
  slice_to ct 5 = slice_to ct' 5 -> ParseHeader ks (slice_to ct 5) = Ok (KAes k) ->
  (Decrypt ks t dec = Raise InvalidSignatureError <-> Decrypt ks t' dec = Raise InvalidSignatureError) ->
  steps (Decrypt_t ks t dec) = steps (Decrypt_t ks t' dec).
Proof.
  intros ks dec k t t' ct ct' HT E E' HS HH HP HV. unfold Decrypt_t. unfold Decrypt in HV. rewrite HT, E, E' in *. cbn [bind] in HV. apply steps_after.
  apply steps_bind; [reflexivity| |intros a e _ X; discriminate X | intros a e X; discriminate X].
  intros a a' X X'. apply Ok_inj in X as <-. apply Ok_inj in X' as <-. apply steps_after. rewrite HS in *. destruct (_ <? HEADER_SIZE); [reflexivity|].
  apply steps_after. change HEADER_SIZE with 5 in *. rewrite <- HH in *. rewrite HP in HV. cbn [bind key_Decrypt] in HV.
  apply steps_bind; [reflexivity| |intros a e; congruence | intros a e; congruence].
  intros a a'. rewrite result_header, HP. intros X X'. apply Ok_inj in X as <-. apply Ok_inj in X' as <-. apply steps_after.
  cbn [key_Decrypt_t]. apply steps_aes; assumption.
Qed.
Print Assumptions C76_aes_ciphertexts.

(** A ciphertext refused for its tag is not decrypted and its padding is not looked at. *)
Definition decrypting (s : step) : Prop := (exists n, s = InLibrary "decrypt" n) \/ s = InKeys 468 \/ s = InKeys 469 \/ s = InKeys 405 \/ s = InKeys 406.

Lemma in_steps_after {A} l (t : traced A) s : In s (steps (after l t)) -> In s l \/ In s (steps t).
Proof. unfold steps, after. cbn [fst]. apply in_app_or. Qed.

Lemma in_steps_bind {A B} (t : traced A) (k : A -> traced B) s : In s (steps (tbind t k)) ->
  In s (steps t) \/ exists a, result t = Ok a /\ In s (steps (k a)).
Proof.
  unfold steps, tbind, result. destruct (snd t) as [a|e]; cbn [fst]; [|tauto]. intros H. apply in_app_or in H as [H|H]; [tauto|]. right. exists a. split; [reflexivity | exact H].
Qed.

Lemma steps_compare mac sig s : In s (steps (VerifySignedData_t mac sig)) -> exists n, s = InKeys n /\ 582 <= n <= 587.
Proof.
  unfold VerifySignedData_t. intros H. apply in_steps_after in H as [[<-|[]]|H]; [eexists; split; [reflexivity | lia]|].
  destruct (negb _); [apply in_steps_after in H as [[<-|[]]|[]]; eexists; split; [reflexivity | lia]|].
  apply in_steps_after in H as [[<-|[]]|H]; [eexists; split; [reflexivity | lia]|].
  apply in_steps_bind in H as [H|(a & _ & H)]; [|apply in_steps_after in H as [[<-|[]]|[]]; eexists; split; [reflexivity | lia]].
  revert H. generalize 0. induction (combine mac sig) as [|[x y] l IH]; intros r H; cbn [compare_loop_t] in H.
  - apply in_steps_after in H as [[<-|[]]|[]]; eexists; split; [reflexivity | lia].
  - apply in_steps_after in H as [[<-|[<-|[]]]|H]; [eexists; split; [reflexivity | lia] | eexists; split; [reflexivity | lia] | apply (IH _ H)].
Qed.

Theorem C76_refused_before_decryption : forall ks dec k t ct s, apply_codec dec t = Ok ct -> ParseHeader ks (slice_to ct 5) = Ok (KAes k) ->
  Decrypt ks t dec = Raise InvalidSignatureError -> In s (steps (Decrypt_t ks t dec)) -> ~ decrypting s.
Proof.
  intros ks dec k t ct s E HP HV HI HD. unfold Decrypt_t in HI. unfold Decrypt in HV. rewrite E in *. cbn [bind] in HV.
  assert (N : forall l, (forall x, In x l -> ~ decrypting x) -> In s l -> False) by (intros l HL X; apply (HL s X HD)).
  assert (ND : forall n, ~ (n = 468 \/ n = 469 \/ n = 405 \/ n = 406) -> ~ decrypting (InKeys n)) by (intros n HN [(m & C)|[C|[C|[C|C]]]]; [discriminate C | | | |]; injection C as ->; apply HN; tauto).
  assert (NZ : forall n, ~ decrypting (InKeyczar n)) by (intros n [(m & C)|[C|[C|[C|C]]]]; discriminate C).
  assert (NL : forall f n, f <> "decrypt"%string -> ~ decrypting (InLibrary f n)) by (intros f n HN [(m & C)|[C|[C|[C|C]]]]; try discriminate C; injection C as -> _; contradiction HN; reflexivity).
  assert (NS : forall l, Forall (fun x => ~ decrypting x) l -> In s l -> False) by (intros l F X; rewrite Forall_forall in F; apply (F s X HD)).
  apply in_steps_after in HI as [HI|HI]; [revert HI; apply NS; repeat constructor; [apply NZ | apply NL; discriminate]|].
  apply in_steps_bind in HI as [[]|(b & X & HI)]. apply Ok_inj in X as <-.
  apply in_steps_after in HI as [HI|HI]; [revert HI; apply NS; repeat constructor; apply NZ|].
  destruct (_ <? HEADER_SIZE); [discriminate HV|]. change HEADER_SIZE with 5 in *. rewrite HP in HV. cbn [bind key_Decrypt] in HV.
  apply in_steps_after in HI as [HI|HI]; [revert HI; apply NS; repeat constructor; apply NZ|].
  apply in_steps_bind in HI as [HI|(k' & X & HI)].
  - unfold ParseHeader_t in HI. apply in_steps_after in HI as [HI|HI]; [revert HI; apply NS; repeat constructor; apply NZ|].
    apply in_steps_bind in HI as [[]|(c & _ & HI)]. apply in_steps_after in HI as [HI|HI]; [revert HI; apply NS; repeat constructor; apply NZ|].
    destruct (negb _); [apply in_steps_after in HI as [HI|[]]; revert HI; apply NS; repeat constructor; apply NZ|].
    apply in_steps_after in HI as [HI|HI]; [revert HI; apply NS; repeat constructor; apply NZ|].
    destruct (GetKey_hash _ _); [destruct HI|]. apply in_steps_after in HI as [HI|[]]; revert HI; apply NS; repeat constructor; apply NZ.
  - rewrite result_header, HP in X. apply Ok_inj in X as <-. cbn [key_Decrypt_t] in HI.
    apply in_steps_after in HI as [HI|HI]; [revert HI; apply NS; repeat constructor; apply NZ|].
    rewrite <- result_aes in HV. unfold AesKey_Decrypt_t in HI, HV. rewrite result_after in HV.
    apply in_steps_after in HI as [HI|HI]; [revert HI; apply NS; repeat constructor; apply ND; lia|].
    destruct (_ <? block_size + HLEN); [discriminate HV|]. rewrite result_after, result_bind in HV.
    apply in_steps_after in HI as [HI|HI]; [revert HI; apply NS; repeat constructor; apply ND; lia|].
    apply in_steps_bind in HI as [HI|(ok & X & HI)].
    + unfold HmacKey_Verify_t, HmacKey_Sign_t in HI. apply in_steps_after in HI as [HI|HI]; [revert HI; apply NS; repeat constructor; apply ND; lia|].
      apply in_steps_bind in HI as [HI|(mac & _ & HI)].
      * apply in_steps_after in HI as [HI|[]]; revert HI; apply NS; repeat constructor; [apply ND; lia | apply NL; discriminate].
      * apply steps_compare in HI as (n & -> & HN). revert HD. apply ND. lia.
    + rewrite X in HV. cbn [bind] in HV. destruct ok; cbn [negb] in *.
      * exfalso. revert HV. rewrite result_after. apply (nosig_decrypted k).
      * apply in_steps_after in HI as [HI|[]]; revert HI; apply NS; repeat constructor; apply ND; lia.
Qed.
Print Assumptions C76_refused_before_decryption.

(** A signature and a ciphertext, and forgeries that differ from them in the first and in the last
    byte of the tag. *)
Definition with_byte (i : Z) (s : str) : str := slice_to s i ++ map (fun c => chr (Z.lxor (ord c) 1)) (slice s i (i + 1)) ++ slice_from s (i + 1).
Definition a_signature : str := Eval vm_compute in match Sign zero_env hmac_set (bs "pay 1") None with Ok s => s | Raise _ => [] end.
Definition a_ciphertext : str := Eval vm_compute in match Encrypt zero_env aes_set (bs "pay 1") None with Ok s => s | Raise _ => [] end.
Example C76_case :
  (exists k, ParseHeader hmac_set (slice_to a_signature 5) = Ok (KHmac k)) /\
  (exists k, ParseHeader aes_set (slice_to a_ciphertext 5) = Ok (KAes k)) /\
  map (fun s => (len s, slice_to s 5)) [with_byte 5 a_signature; with_byte 24 a_signature] = [(25, slice_to a_signature 5); (25, slice_to a_signature 5)] /\
  map (fun s => (len s, slice_to s 5)) [with_byte 37 a_ciphertext; with_byte 56 a_ciphertext] = [(57, slice_to a_ciphertext 5); (57, slice_to a_ciphertext 5)] /\
  map (fun s => Verify hmac_set (bs "pay 1") s None) [a_signature; with_byte 5 a_signature; with_byte 24 a_signature] = [Ok true; Ok false; Ok false] /\
  map (fun s => Decrypt aes_set s None) [a_ciphertext; with_byte 37 a_ciphertext; with_byte 56 a_ciphertext] =
    [Ok (bs "pay 1"); Raise InvalidSignatureError; Raise InvalidSignatureError].
Proof.
  split; [eexists; vm_compute; reflexivity|]. split; [eexists; vm_compute; reflexivity|]. split; [vm_compute; reflexivity|]. split; [vm_compute; reflexivity|].
  split; vm_compute; reflexivity.
Qed.
