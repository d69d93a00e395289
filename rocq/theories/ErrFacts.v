(** * ErrFacts: which exceptions the key operations cannot raise. *)
From Coq Require Import Strings.String.
From Coq Require Import List ZArith NArith Bool Lia ZifyBool ZifyNat ZifyN.
From Coq.Init Require Import Byte.
From Verif Require Import PyBase PyFacts Base64 Sha1 Util Aes Json KeyInfo SymKeys ModArith Der AsymKeys Keys.
Import ListNotations.
Local Open Scope Z_scope.
Ltac Zify.zify_post_hook ::= idtac.

(** The errors that report on the header of an input. *)
Definition header_error (e : exn) : bool :=
  match e with BadVersionError _ | KeyNotFoundError _ => true | _ => false end.

(** [r] does not end with one of these. *)
Definition quiet {A} (r : res A) : Prop := forall e, r = Raise e -> header_error e = false.

Lemma quiet_Ok {A} (a : A) : quiet (Ok a).
Proof. intros e H. discriminate. Qed.

Lemma quiet_Raise {A} e : header_error e = false -> quiet (@Raise A e).
Proof. intros H e' E. apply Raise_inj in E as <-. exact H. Qed.

Lemma quiet_bind {A B} (r : res A) (f : A -> res B) : quiet r -> (forall a, quiet (f a)) -> quiet (bind r f).
Proof. intros Hr Hf. destruct r as [a|e]; cbn [bind]; [apply Hf | apply quiet_Raise, Hr; reflexivity]. Qed.

Lemma quiet_mapM {A B} (f : A -> res B) l : (forall a, quiet (f a)) -> quiet (mapM f l).
Proof.
  intros H. induction l as [|a l IH]; cbn [mapM]; [apply quiet_Ok|]. apply quiet_bind; [apply H|]. intros b.
  apply quiet_bind; [exact IH|]. intros. apply quiet_Ok.
Qed.

Ltac quiet1 :=
  match goal with
  | |- quiet (Ok _) => apply quiet_Ok
  | |- quiet (Raise _) => apply quiet_Raise; reflexivity
  | |- quiet (bind _ _) => apply quiet_bind; [|intros]
  | |- quiet (mapM _ _) => apply quiet_mapM; intros
  | |- quiet (if ?b then _ else _) => destruct b
  | |- quiet (let (_, _) := ?p in _) => destruct p
  | |- quiet (match ?x with _ => _ end) => destruct x
  end.
Ltac quiet := repeat quiet1.

Lemma quiet_a2b s : forall q b c, quiet (a2b_loop s q b c).
Proof.
  induction s as [|a s IH]; intros q b c; cbn [a2b_loop]; [quiet|].
  destruct (beqb a "="%byte); [destruct (_ || _); [apply IH | apply quiet_Ok]|].
  destruct (b64_val a); [|apply IH]. cbv zeta. destruct (8 <=? b + 6); [|apply IH].
  apply quiet_bind; [apply IH | intros; apply quiet_Ok].
Qed.

Lemma quiet_decode_stripped s : quiet (decode_stripped s).
Proof.
  unfold decode_stripped. cbv zeta. destruct (_ =? 1); [quiet|].
  set (t := map _ _). pose proof (quiet_a2b t 0 0 0) as Q. unfold a2b_base64.
  destruct (a2b_loop t 0 0 0) as [x|e]; [apply quiet_Ok|]. specialize (Q e eq_refl).
  destruct e; try (apply quiet_Raise; first [exact Q | reflexivity]).
Qed.

Lemma quiet_b64u u : quiet (Base64WSDecode_u u).
Proof.
  unfold Base64WSDecode_u. apply quiet_bind; [|intros; apply quiet_decode_stripped].
  unfold str_of_text. apply quiet_mapM. intros a. quiet.
Qed.

Lemma quiet_index {A} (l : list A) i : quiet (index l i).
Proof. unfold index. quiet. Qed.

Lemma quiet_cipher_decrypt c s : quiet (cipher_decrypt c s).
Proof. unfold cipher_decrypt. quiet. Qed.

Lemma quiet_HmacSign k m : quiet (HmacKey_Sign k m).
Proof. unfold HmacKey_Sign. apply quiet_bind; [apply quiet_b64u | intros; apply quiet_Ok]. Qed.

Lemma quiet_HmacVerify k m s : quiet (HmacKey_Verify k m s).
Proof. unfold HmacKey_Verify. apply quiet_bind; [apply quiet_HmacSign | intros; apply quiet_Ok]. Qed.

Lemma quiet_AesDecrypt k s : quiet (AesKey_Decrypt k s).
Proof.
  unfold AesKey_Decrypt. cbv zeta. destruct (_ <? _); [quiet|]. apply quiet_bind; [apply quiet_HmacVerify|].
  intros b. destruct (negb b); [quiet|]. apply quiet_bind; [apply quiet_b64u|]. intros kb.
  apply quiet_bind; [unfold AES_new; quiet|]. intros c. apply quiet_bind; [apply quiet_cipher_decrypt|].
  intros [p c']. unfold UnPad. apply quiet_bind; [apply quiet_index | intros; apply quiet_Ok].
Qed.

Lemma quiet_MGF s n : quiet (MGF s n).
Proof. unfold MGF. quiet. Qed.

Lemma quiet_oaep k s : quiet (oaep_decode k s).
Proof.
  unfold oaep_decode. cbv zeta. destruct (_ <? _); [quiet|]. apply quiet_bind; [apply quiet_MGF|]. intros m.
  apply quiet_bind; [apply quiet_MGF|]. intros m2. destruct (negb _); [quiet|].
  apply quiet_bind; [apply quiet_index|]. intros c. quiet.
Qed.

Lemma quiet_RsaDecrypt k s : quiet (RsaPrivateKey_Decrypt k s).
Proof.
  unfold RsaPrivateKey_Decrypt. cbv zeta. apply quiet_bind; [|intros; apply quiet_oaep].
  unfold rsa_decrypt_str. apply quiet_bind; [|intros; apply quiet_Ok]. unfold rsa_private. cbv zeta. quiet.
Qed.

Lemma key_Decrypt_quiet k s : quiet (key_Decrypt k s).
Proof. destruct k; cbn [key_Decrypt]; try quiet; [apply quiet_AesDecrypt | apply quiet_RsaDecrypt]. Qed.

Lemma quiet_decode_length s : quiet (decode_length s).
Proof. unfold decode_length. cbv zeta. quiet. Qed.

Lemma quiet_arcs s : forall a, quiet (octets_arcs a s).
Proof.
  induction s as [|b s IH]; intros a; cbn [octets_arcs]; [quiet|]. cbv zeta. destruct (_ <=? _); [apply IH|].
  apply quiet_bind; [apply IH | intros; apply quiet_Ok].
Qed.

Lemma quiet_decode n : forall s, quiet (decode_fuel n s).
Proof.
  induction n as [|f IH]; intros s; cbn [decode_fuel]; [quiet|]. destruct s as [|tag rest]; [quiet|].
  apply quiet_bind; [apply quiet_decode_length|]. intros [n r]. destruct (_ <? _); [quiet|]. cbv zeta.
  destruct (beqb tag x02); [apply quiet_bind; [unfold octets_int; quiet | intros; apply quiet_Ok]|].
  destruct (beqb tag x03); [apply quiet_bind; [unfold octets_bits; quiet | intros; apply quiet_Ok]|].
  destruct (beqb tag x04); [quiet|]. destruct (beqb tag x05); [quiet|].
  destruct (beqb tag x06).
  { apply quiet_bind; [|intros; apply quiet_Ok]. unfold octets_oid. apply quiet_bind; [apply quiet_arcs | intros; quiet]. }
  destruct (beqb tag x30); [|quiet]. apply quiet_bind; [|intros; apply quiet_Ok].
  generalize (slice_to r n) as b. generalize f at 2 as g.
  induction g as [|g IHg]; intros b; destruct b as [|c b]; try quiet.
  - apply IH.
  - apply IHg.
Qed.

Lemma key_Verify_quiet k m s : quiet (key_Verify k m s).
Proof.
  assert (D : forall kk, quiet (DsaPublicKey_Verify kk m s)).
  { intros kk. unfold DsaPublicKey_Verify.
    assert (Q : quiet (ParseDsaSig s)).
    { unfold ParseDsaSig. repeat (quiet1 || apply quiet_decode); try (unfold ParseASN1Sequence, asn1_int, item, asn1_len, getComponent; repeat quiet1). }
    destruct (ParseDsaSig s) as [[r q]|e]; [apply quiet_Ok|]. specialize (Q e eq_refl).
    destruct (is_keyczar_error e); [apply quiet_Ok | apply quiet_Raise; exact Q]. }
  destruct k; cbn [key_Verify]; try quiet; try apply D. apply quiet_HmacVerify.
Qed.
