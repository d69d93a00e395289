(** * Props_Session2: which material opens a signed session (C41).

    [C41_signed_session_roundtrip] is about material this library made.  Here the material is anything
    that decrypts: written by another implementation, with the members in another order, with other
    white space or with further members, or no session at all. *)
From Coq Require Import Strings.String.
From Coq Require Import List ZArith NArith Bool Lia ZifyBool ZifyNat ZifyN.
From Coq.Init Require Import Byte.
From Verif Require Import PyBase PyFacts Base64 Base64Facts Sha1 Util UtilFacts Json JsonFacts JsonSpec JsonSpecFacts KeyInfo KeyData Aes SymKeys SymFacts AsymKeys Keys KeysFacts Keyczar KeyRing KeyczarFacts
  Session Props_Keyset Props_Sign Props_Session Props_Json Props_Format Props_More Props_More3.
Import ListNotations.
Local Open Scope Z_scope.
Ltac Zify.zify_post_hook ::= idtac.

(** The JSON of a session: a key with these bytes under "key", a nonce under "nonce". *)
Definition session_form (v : json) (size : Z) (kb hb nonce : str) : Prop :=
  (exists kj, Props_Format.holds v "key" kj /\ json_ok kj /\ aes_form kj size kb hb) /\ Props_Format.holds v "nonce" (b64 nonce).

Lemma aes_form_read kj size kb hb : json_ok kj -> In size [128; 192; 256] -> aes_form kj size kb hb ->
  exists k, AesKey_Read (dumps kj) = Ok k /\ ak_size k = size /\ aes_material k kb hb.
Proof.
  intros HO HS HF. destruct (C64_reads_aes (dumps kj) kj size kb hb) as (k & E & A & B); [apply loads_grammar, loads_dumps, HO | exact HS | exact HF|].
  exists k. split; [|split; assumption]. unfold ReadKey, key_error_to_keyczar in E. destruct (AesKey_Read (dumps kj)) as [k'|x]; cbn [bind] in E; [injection E as ->; reflexivity | destruct x; discriminate E].
Qed.

(** Any JSON text of that form opens the session with these key bytes and this nonce. *)
Theorem C41_material_is_read : forall crypter m d v size kb hb nonce,
  Decrypt crypter m b64_decoder = Ok d -> json_text d v -> In size [128; 192; 256] -> session_form v size kb hb nonce ->
  exists s, SignedSessionDecrypter crypter m = Ok s /\ ak_size (se_key s) = size /\ aes_material (se_key s) kb hb /\ se_nonce s = Some nonce.
Proof.
  intros crypter m d v size kb hb nonce HD HJ HS ((kj & HK & HO & HF) & HN). apply loads_grammar in HJ.
  destruct (aes_form_read kj size kb hb HO HS HF) as (k & E & A & B).
  exists (MkSession k (Some nonce)). split; [|split; [exact A|split; [exact B | reflexivity]]].
  unfold SignedSessionDecrypter. rewrite HD. cbn [bind]. unfold LoadJsonSession. rewrite HJ. cbn [bind]. rewrite (holds_get _ _ _ HK). cbn [bind]. rewrite E. cbn [bind].
  rewrite (holds_b64 _ _ _ HN). reflexivity.
Qed.
Print Assumptions C41_material_is_read.

(** The same session, written in two ways and read by two receivers, is one and the same, and what one of them sends the other reads. *)
Lemma aes_form_key kj size kb hb : json_ok kj -> aes_form kj size kb hb ->
  AesKey_Read (dumps kj) = AesKey_new (text_of_str (Base64WSEncode kb)) (HmacKey_new (text_of_str (Base64WSEncode hb)) 256) size CBC.
Proof.
  intros HO (H1 & H2 & H3 & h & H4 & H5 & H6). unfold AesKey_Read. rewrite (loads_dumps _ HO). cbn [bind]. rewrite (holds_get _ _ _ H4). cbn [bind].
  rewrite (holds_str _ _ _ H3), (holds_str _ _ _ H5), (holds_int _ _ _ H6), (holds_int _ _ _ H2), (holds_str _ _ _ H1). reflexivity.
Qed.

Theorem C41_one_session : forall crypter m d v crypter' m' d' v' size kb hb nonce,
  Decrypt crypter m b64_decoder = Ok d -> json_text d v -> session_form v size kb hb nonce ->
  Decrypt crypter' m' b64_decoder = Ok d' -> json_text d' v' -> session_form v' size kb hb nonce -> aes_size_ok kb ->
  exists s, SignedSessionDecrypter crypter m = Ok s /\ SignedSessionDecrypter crypter' m' = Ok s /\
    forall e1 e2 signer k verifier n k' p blob, signer_of signer k -> Props_Sign.holds verifier n k' -> checks k k' ->
      (forall raw pn, Session_Encrypt e1 s p None = Ok raw -> PackByteArray (se_nonce s) = Ok pn -> signs_soundly e2 k (raw ++ pn ++ VERSION_BYTE)) ->
      SignedSession_Encrypt e1 e2 s signer p = Ok blob -> SignedSession_Decrypt s verifier blob = Ok (Some p).
Proof.
  assert (R : forall crypter m d v size kb hb nonce, Decrypt crypter m b64_decoder = Ok d -> json_text d v -> session_form v size kb hb nonce ->
    SignedSessionDecrypter crypter m = Ok (MkSession (MkAes (text_of_str (Base64WSEncode kb)) (HmacKey_new (text_of_str (Base64WSEncode hb)) 256) (set_size AES size)) (Some nonce))).
  { intros crypter m d v size kb hb nonce HD HJ ((kj & HK & HO & HF) & HN). apply loads_grammar in HJ. unfold SignedSessionDecrypter. rewrite HD. cbn [bind]. unfold LoadJsonSession.
    rewrite HJ. cbn [bind]. rewrite (holds_get _ _ _ HK). cbn [bind]. rewrite (aes_form_key kj size kb hb HO HF). cbn [AesKey_new bind]. rewrite (holds_b64 _ _ _ HN). reflexivity. }
  intros crypter m d v crypter' m' d' v' size kb hb nonce D1 J1 F1 D2 J2 F2 HS. eexists. split; [exact (R _ _ _ _ _ _ _ _ D1 J1 F1)|]. split; [exact (R _ _ _ _ _ _ _ _ D2 J2 F2)|].
  intros e1 e2 signer k verifier n k' p blob. apply C41_message_roundtrip. split.
  - split; [apply text_of_str_ok|]. split; [apply (HmacKey_new_wf _ _ hb), base64_roundtrip_u | apply set_size_is_valid].
  - exists kb, hb. split; [split; apply base64_roundtrip_u | exact HS].
Qed.
Print Assumptions C41_one_session.

Lemma absent_get ms name : (forall w, ~ In (tx name, w) ms) -> get (JObj ms) name = Raise KeyError.
Proof.
  intros H. destruct (get (JObj ms) name) as [w|x] eqn:E; [|rewrite (get_error _ _ _ E); reflexivity].
  exfalso. apply get_obj in E as (a & b & -> & _). apply (H w), in_or_app. right. left. reflexivity.
Qed.

(** A receiver who cannot decrypt the material gets the error of Decrypt.  Otherwise: what is not JSON is
    refused with ValueError, JSON that is no object with TypeError, and an object, or a key in it, that
    lacks a member with KeyError; none of these is a KeyczarError. *)
Theorem C41_other_material : forall crypter m,
  (forall e, Decrypt crypter m b64_decoder = Raise e -> SignedSessionDecrypter crypter m = Raise e) /\
  (forall d, Decrypt crypter m b64_decoder = Ok d ->
     ((forall v, ~ json_text d v) -> exists e, SignedSessionDecrypter crypter m = Raise e /\ value_error e) /\
     (forall v, json_text d v -> (forall ms, v <> JObj ms) -> SignedSessionDecrypter crypter m = Raise TypeError) /\
     (forall ms, json_text d (JObj ms) -> (forall w, ~ In (tx "key", w) ms) -> SignedSessionDecrypter crypter m = Raise KeyError) /\
     (forall ms kj size kb hb, json_text d (JObj ms) -> Props_Format.holds (JObj ms) "key" kj -> json_ok kj -> In size [128; 192; 256] -> aes_form kj size kb hb ->
        (forall w, ~ In (tx "nonce", w) ms) -> SignedSessionDecrypter crypter m = Raise KeyError) /\
     (forall ms km size kb hb name, json_text d (JObj ms) -> aes_form (JObj km) size kb hb -> In name ["mode"; "size"; "aesKeyString"; "hmacKey"]%string ->
        Props_Format.holds (JObj ms) "key" (JObj (without name km)) -> json_ok (JObj (without name km)) -> SignedSessionDecrypter crypter m = Raise KeyError)).
Proof.
  intros crypter m. split; [intros e HD; unfold SignedSessionDecrypter; rewrite HD; reflexivity|].
  intros d HD. assert (X : SignedSessionDecrypter crypter m = LoadJsonSession d) by (unfold SignedSessionDecrypter; rewrite HD; reflexivity). rewrite X. clear X HD. unfold LoadJsonSession.
  split; [|split; [|split; [|split]]].
  - intros HN. apply (proj2 (proj2 (C74_reads_json d))) in HN as (e & E & V). exists e. rewrite E. split; [reflexivity | exact V].
  - intros v HJ HN. apply loads_grammar in HJ. rewrite HJ. destruct v; try reflexivity. destruct (HN m0 eq_refl).
  - intros ms HJ HA. apply loads_grammar in HJ. rewrite HJ. cbn [bind]. rewrite (absent_get ms "key" HA). reflexivity.
  - intros ms kj size kb hb HJ HK HO HS HF HA. apply loads_grammar in HJ. rewrite HJ. cbn [bind]. rewrite (holds_get _ _ _ HK). cbn [bind].
    destruct (aes_form_read kj size kb hb HO HS HF) as (k & E & _). rewrite E. cbn [bind]. unfold get_b64, get_str. rewrite (absent_get ms "nonce" HA). reflexivity.
  - intros ms km size kb hb name HJ (H1 & H2 & H3 & h & H4 & H5 & H6) HI HK HO. apply loads_grammar in HJ. rewrite HJ. cbn [bind]. rewrite (holds_get _ _ _ HK). cbn [bind].
    unfold AesKey_Read. rewrite (loads_dumps _ HO). cbn [bind]. apply holds_get in H4. apply holds_str in H1, H3, H5. apply holds_int in H2, H6.
    destruct HI as [<-|[<-|[<-|[<-|[]]]]].
    + rewrite get_other, H4 by discriminate. cbn [bind]. rewrite str_other, H3 by discriminate. cbn [bind]. rewrite H5. cbn [bind]. rewrite H6. cbn [bind]. rewrite int_other, H2 by discriminate. cbn [bind]. rewrite str_without. reflexivity.
    + rewrite get_other, H4 by discriminate. cbn [bind]. rewrite str_other, H3 by discriminate. cbn [bind]. rewrite H5. cbn [bind]. rewrite H6. cbn [bind]. rewrite int_without. reflexivity.
    + rewrite get_other, H4 by discriminate. cbn [bind]. rewrite str_without. reflexivity.
    + rewrite get_without. reflexivity.
Qed.
Print Assumptions C41_other_material.

Lemma b64_ok s : json_ok (b64 s).
Proof. exact (text_of_str_ok _). Qed.
Ltac oks := apply json_ok_obj; repeat (apply Forall_cons; [split; [apply tx_ok|]; cbn [snd]; first [exact I | apply b64_ok | apply tx_ok | assumption]|]); apply Forall_nil.

(** A session written by hand: the nonce first, a member nobody asked for, and white space. *)
Example C41_case_material :
  let hk := JObj [(tx "size", JInt 256); (tx "hmacKeyString", b64 (repeat x02 32))] in
  let kj := JObj [(tx "size", JInt 128); (tx "hmacKey", hk); (tx "mode", JStr (tx "CBC")); (tx "aesKeyString", b64 (repeat x01 16))] in
  let v := JObj [(tx "nonce", b64 (repeat x03 16)); (tx "made", JInt 7); (tx "key", kj)] in
  session_form v 128 (repeat x01 16) (repeat x02 32) (repeat x03 16) /\ json_text (dumps v) v /\
  (forall w, ~ In (tx "nonce", w) [(tx "key", kj)]) /\ json_ok (JObj (without "mode" [(tx "size", JInt 128); (tx "hmacKey", hk); (tx "mode", JStr (tx "CBC"))])).
Proof.
  intros hk kj v.
  assert (O1 : json_ok hk) by oks.
  assert (O2 : json_ok kj) by oks.
  assert (O3 : json_ok v) by oks.
  assert (HH : forall m name w, In (tx name, w) m -> (forall w', In (tx name, w') m -> w' = w) -> Props_Format.holds (JObj m) name w) by (intros m name w A B; exists m; auto).
  split; [|split; [apply loads_grammar, loads_dumps, O3|split]].
  - split; [exists kj; split; [|split; [exact O2|]]|].
    + apply HH; [right; right; left; reflexivity|]. intros w' [E|[E|[E|[]]]]; inversion E; reflexivity.
    + unfold aes_form. repeat split; try exists hk; try split; try split; (apply HH; [cbn [In]; auto|]); intros w' HI; cbn [In] in HI; repeat (destruct HI as [HI|HI]; [inversion HI; reflexivity|]); destruct HI.
    + apply HH; [left; reflexivity|]. intros w' [E|[E|[E|[]]]]; inversion E; reflexivity.
  - intros w [E|[]]. inversion E.
  - change (json_ok (JObj [(tx "size", JInt 128); (tx "hmacKey", hk)])). oks.
Qed.
