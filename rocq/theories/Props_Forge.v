(** * Props_Forge: what is accepted was made by the holders of the keys, or HMAC-SHA1 is forged (C91). *)
From Coq Require Import Strings.String.
From Coq Require Import List ZArith NArith Bool Lia ZifyBool ZifyNat ZifyN.
From Coq.Init Require Import Byte.
From Verif Require Import PyBase PyFacts Base64 Base64Facts Sha1 Util UtilFacts Json JsonFacts KeyInfo KeyData Aes SymKeys SymFacts AsymKeys Keys KeysFacts Keyczar KeyRing KeyczarFacts
  Props_Util Props_Sym Props_Keyset Props_Sign Disk DiskFacts Props_Disk Threads Props_Threads.
Import ListNotations.
Local Open Scope Z_scope.
Ltac Zify.zify_post_hook ::= idtac.

(** ** Specification *)

(** Everything that was ever asked of the holders of some keys, in whatever order and processes and
    between whatever changes of the key sets: calls, each with the set as it was at the time. *)
Definition use := (keyset * call)%type.
Definition service (t : ktype) (H : list use) : Prop := forall ks c, In (ks, c) H -> reached ks /\ ks_type ks = t.

(** The keys an object has, whatever became of their versions. *)
Definition keys_of (ks : keyset) : list key := map snd (ks_vkeys ks).

(** The text a signature made by a call is for. *)
Inductive covers : call -> str -> Prop :=
| CoversDetached e m d : covers (CSign e m d) (m ++ [x00])
| CoversAttached e m n d : covers (CAttachedSign e m n d) (signed_text m n)
| CoversBare e m d : covers (CUnversionedSign e m d) m.

(** The holders were asked to sign the text, when the HMAC key with the given bytes was primary. *)
Definition asked_to_sign (H : list use) (hb text : str) : Prop :=
  exists ks c k, In (ks, c) H /\ primary_key ks = Ok (KHmac k) /\ hmac_bytes k = Ok hb /\ covers c text.

(** A ciphertext made by the holders has the given text before its tag. *)
Definition asked_to_encrypt (H : list use) (text : str) : Prop :=
  exists ks e m d tag, In (ks, CEncrypt e m d) H /\ Encrypt e ks m None = Ok (text ++ tag) /\ len tag = 20.

(** No two keys have one identifier. *)
Definition ids_agree (H : list use) (ks : keyset) : Prop :=
  forall ks1 c k1 k, In (ks1, c) H -> primary_key ks1 = Ok k1 -> In k (keys_of ks) -> key_hash_id k1 = key_hash_id k -> k1 = k.

(** The signature ends with the HMAC of the text under a key of the set, and the holders of the key were not
    asked to sign this text. *)
Definition forged (H : list use) (ks : keyset) (signature text : str) : Prop :=
  exists k hb pre, In (KHmac k) (keys_of ks) /\ hmac_bytes k = Ok hb /\ signature = pre ++ hmac_sha1 hb text /\ ~ asked_to_sign H hb text.

(** ** Lemmas *)

Definition str_dec := list_eq_dec Byte.byte_eq_dec.

Lemma covers_dec c text : {covers c text} + {~ covers c text}.
Proof.
  destruct c as [e m d|c d|e m d|m s d|e m n d|s n d|e m d|m s d]; try (right; intros C; inversion C; fail).
  - destruct (str_dec text (m ++ [x00])) as [->|N]; [left; constructor | right; intros C; inversion C; subst; apply N; reflexivity].
  - destruct (str_dec text (signed_text m n)) as [->|N]; [left; constructor | right; intros C; inversion C; subst; apply N; reflexivity].
  - destruct (str_dec text m) as [->|N]; [left; constructor | right; intros C; inversion C; subst; apply N; reflexivity].
Qed.

Lemma asked_dec H hb text : {asked_to_sign H hb text} + {~ asked_to_sign H hb text}.
Proof.
  induction H as [|[ks c] H IH]; [right; intros (ks & c & k & [] & _)|].
  destruct IH as [A|A]; [left; destruct A as (ks' & c' & k & HI & R); exists ks', c', k; split; [right; exact HI | exact R]|].
  assert (D : {exists k, primary_key ks = Ok (KHmac k) /\ hmac_bytes k = Ok hb /\ covers c text} + {~ exists k, primary_key ks = Ok (KHmac k) /\ hmac_bytes k = Ok hb /\ covers c text}).
  { destruct (primary_key ks) as [[k|k|k|k|k|k]|e] eqn:EP; try (right; intros (k' & C & _); discriminate C).
    destruct (hmac_bytes k) as [b|e] eqn:EB; [|right; intros (k' & C & C' & _); congruence].
    destruct (str_dec b hb) as [->|N]; [|right; intros (k' & C & C' & _); congruence].
    destruct (covers_dec c text) as [CV|CV]; [left; exists k; auto | right; intros (k' & _ & _ & C); exact (CV C)]. }
  destruct D as [D|D]; [left; destruct D as (k & D); exists ks, c, k; split; [left; reflexivity | exact D]|].
  right. intros (ks' & c' & k & [E|HI] & R); [injection E as <- <-; apply D; exists k; exact R | apply A; exists ks', c', k; split; assumption].
Qed.

Lemma cut20 (s text : str) : {tag | s = text ++ tag /\ len tag = 20} + {~ exists tag, s = text ++ tag /\ len tag = 20}.
Proof.
  destruct (str_dec (firstn (List.length text) s) text) as [E|E].
  - destruct (Z.eq_dec (len (skipn (List.length text) s)) 20) as [L|L].
    + left. exists (skipn (List.length text) s). split; [|exact L]. rewrite <- E at 1. symmetry. apply firstn_skipn.
    + right. intros (tag & -> & LT). apply L. rewrite skipn_app, skipn_all, Nat.sub_diag. exact LT.
  - right. intros (tag & -> & _). apply E. rewrite firstn_app, Nat.sub_diag, firstn_all, app_nil_r. reflexivity.
Qed.

Lemma asked_encrypt_dec H text : {asked_to_encrypt H text} + {~ asked_to_encrypt H text}.
Proof.
  induction H as [|[ks c] H IH]; [right; intros (ks & e & m & d & tag & [] & _)|].
  destruct IH as [A|A]; [left; destruct A as (ks' & e & m & d & tag & HI & R); exists ks', e, m, d, tag; split; [right; exact HI | exact R]|].
  assert (D : {exists e m d tag, c = CEncrypt e m d /\ Encrypt e ks m None = Ok (text ++ tag) /\ len tag = 20} + {~ exists e m d tag, c = CEncrypt e m d /\ Encrypt e ks m None = Ok (text ++ tag) /\ len tag = 20}).
  { destruct c as [e m d| | | | | | |]; try (right; intros (e' & m' & d' & tag & C & _); discriminate C).
    destruct (Encrypt e ks m None) as [out|x] eqn:EE; [|right; intros (e' & m' & d' & tag & C & C' & _); injection C as <- <- <-; congruence].
    destruct (cut20 out text) as [(tag & E & L)|N]; [left; exists e, m, d, tag; split; [reflexivity|]; split; [rewrite EE, E; reflexivity | exact L]|].
    right. intros (e' & m' & d' & tag & C & C' & L). injection C as <- <- <-. apply N. exists tag. split; [congruence | exact L]. }
  destruct D as [D|D]; [left; destruct D as (e & m & d & tag & -> & D); exists ks, e, m, d, tag; split; [left; reflexivity | exact D]|].
  right. intros (ks' & e & m & d & tag & [E|HI] & R); [injection E as <- ->; apply D; exists e, m, d, tag; split; [reflexivity | exact R] | apply A; exists ks', e, m, d, tag; split; assumption].
Qed.

Lemma header_key ks header k : inv ks -> ParseHeader ks header = Ok k ->
  exists id, header = x00 :: id /\ In k (keys_of ks) /\ key_hash_id k = Ok (Base64WSEncode id).
Proof.
  intros I H. unfold ParseHeader in H. destruct header as [|b id]; [discriminate H|]. apply bind_Ok in H as (c & E & H). change (Ok b = Ok c) in E. apply Ok_inj in E as <-.
  destruct (negb (ord b =? VERSION)) eqn:EV; [discriminate H|].
  assert (b = x00) as -> by (apply negb_false_iff, Z.eqb_eq in EV; apply ord_inj; exact EV).
  unfold GetKey_hash in H. destruct (assoc str_eqb (ks_hkeys ks) _) as [k'|] eqn:EA; [|discriminate H]. apply Ok_inj in H as ->.
  destruct (inv_hash2 ks I _ _ EA) as (HH & o & HI). exists id. split; [reflexivity|]. split; [apply in_map_iff; exists (o, k); split; [reflexivity | exact HI]|].
  rewrite HH. f_equal. f_equal. change (x00 :: id) with ([x00] ++ id). apply (slice_from_app [x00] id 1). reflexivity.
Qed.

Lemma hmac_of_set ks k : inv ks -> ks_type ks = HMAC_SHA1 -> In k (keys_of ks) -> exists h hb, k = KHmac h /\ (forall id, key_hash_id k = Ok id -> hmac_bytes h = Ok hb).
Proof.
  intros I T HI. apply in_map_iff in HI as ([o k'] & E & HI). cbn [snd] in E. subst k'. pose proof (inv_type ks I o k HI) as HT. rewrite T in HT.
  destruct k; try discriminate HT. destruct (hmac_bytes k) as [hb|e] eqn:E; [exists k, hb; split; [reflexivity | intros _ _; exact E]|].
  exists k, []. split; [reflexivity|]. intros id HH. exfalso. cbn [key_hash_id] in HH. unfold hmac_hash_id in HH. rewrite E in HH. discriminate HH.
Qed.

Lemma hmac_true h hb m s : hmac_bytes h = Ok hb -> HmacKey_Verify h m s = Ok true -> s = hmac_sha1 hb m.
Proof.
  intros E H. destruct (C16_hmac_verify_is_equality h hb m s E) as (tag & _ & -> & _ & _ & HN).
  destruct (str_dec s (hmac_sha1 hb m)) as [->|N]; [reflexivity|]. rewrite (HN N) in H. discriminate H.
Qed.

(** ** Theorems *)

(** The texts named above are the ones signed: whatever a signing call returns is a signature by the
    primary key for the text that the call covers, after the header and, if attached, the data. *)
Theorem C91_covers : forall ks c out, reached ks -> gives ks c = Ok out ->
  match c with CSign e _ None | CAttachedSign e _ _ None | CUnversionedSign e _ None =>
    exists k text pre sig, primary_key ks = Ok k /\ covers c text /\ key_Sign e k text = Ok sig /\ out = AText (pre ++ sig)
  | _ => True end.
Proof.
  intros ks c out R H. destruct c as [e m d|c d|e m d|m s d|e m n d|s n d|e m d|m s d]; try exact I; destruct d as [d|]; try exact I; cbn [gives] in H.
  - destruct (Sign e ks m None) as [s|x] eqn:E; [|discriminate H]. injection H as <-. unfold Sign, InternalSign in E. apply bind_Ok in E as (k & EP & E). apply bind_Ok in E as (h & _ & E).
    apply bind_Ok in E as (sig & ES & E). rewrite EP in ES. cbn [bind PackByteArray] in ES. apply Ok_inj in E as <-. exists k, (m ++ [x00]), h, sig. split; [exact EP|]. split; [constructor|]. split; [exact ES | reflexivity].
  - destruct (AttachedSign e ks m n None) as [s|x] eqn:E; [|discriminate H]. injection H as <-. unfold AttachedSign, InternalSign in E. apply bind_Ok in E as (k & EP & E). apply bind_Ok in E as (h & _ & E). apply bind_Ok in E as (p & _ & E).
    apply bind_Ok in E as (sig & ES & E). rewrite EP in ES. cbn [bind] in ES. apply bind_Ok in ES as (q & EQ & ES). apply Ok_inj in E as <-. exists k, (signed_text m n), (h ++ p), sig. split; [exact EP|]. split; [constructor|].
    split; [|rewrite <- app_assoc; reflexivity]. unfold signed_text. destruct n as [n|]; [apply PackByteArray_inv in EQ as [_ ->] | apply Ok_inj in EQ as <-]; exact ES.
  - destruct (UnversionedSign e ks m None) as [s|x] eqn:E; [|discriminate H]. injection H as <-. unfold UnversionedSign in E. apply bind_Ok in E as (k & EP & E). apply bind_Ok in E as (sig & ES & E). apply Ok_inj in E as <-.
    exists k, m, [], sig. split; [exact EP|]. split; [constructor|]. split; [exact ES | reflexivity].
Qed.
Print Assumptions C91_covers.

(** What Decrypt returns was given to Encrypt, which returned this very ciphertext; or the ciphertext ends
    with a valid HMAC, under a key of the set, of a text for which the holders of the keys made none. *)
Theorem C91_decrypt : forall H ks text decoder c p, service AES H -> reached ks -> ks_type ks = AES -> ids_agree H ks ->
  apply_codec decoder text = Ok c -> Decrypt ks text decoder = Ok p ->
  (exists ks1 e encoder, In (ks1, CEncrypt e p encoder) H /\ Encrypt e ks1 p None = Ok c) \/
  (exists k kb hb body, In (KAes k) (keys_of ks) /\ aes_material k kb hb /\ c = body ++ hmac_sha1 hb body /\ ~ asked_to_encrypt H body).
Proof.
  intros H ks text decoder c p HS R T HA EC HD. pose proof (reached_inv ks R) as I. unfold Decrypt in HD. rewrite EC in HD. cbn [bind] in HD.
  destruct (len c <? HEADER_SIZE) eqn:EL; [discriminate HD|]. apply bind_Ok in HD as (k & EH & HD). destruct (header_key ks _ k I EH) as (id & EI & HK & HH).
  assert (exists a kb hb, k = KAes a /\ aes_material a kb hb) as (a & kb & hb & -> & HM).
  { apply in_map_iff in HK as ([o k'] & E & HI). cbn [snd] in E. subst k'. pose proof (inv_type ks I o k HI) as HT. rewrite T in HT. destruct k as [a| | | | |]; try discriminate HT.
    cbn [key_hash_id] in HH. unfold aes_hash_id in HH. apply bind_Ok in HH as (kb & EK & HH). apply bind_Ok in HH as (hb & EB & _). exists a, kb, hb. split; [reflexivity|]. split; assumption. }
  cbn [key_Decrypt] in HD. destruct (C18_only_authentic_is_decrypted a hb c p (proj2 HM) HD) as (body & tag & -> & LT & LB & ->).
  destruct (asked_encrypt_dec H body) as [A|A]; [left | right; exists a, kb, hb, body; auto].
  destruct A as (ks1 & e & m & d & tag & HI & EE & LG). destruct (HS _ _ HI) as [R1 T1]. pose proof (reached_inv ks1 R1) as I1.
  unfold Encrypt in EE. apply bind_Ok in EE as (k1 & EP & EE). apply bind_Ok in EE as (out & EO & EE). apply Ok_inj in EE as ->.
  assert (HR : exists n, ring_of ks1 n = Some (PRIMARY, k1)) by (apply (primary_key_spec ks1 k1 I1); exact EP). destruct (signer_primary ks1 k1 (conj R1 HR)) as (_ & id1 & HH1 & L1 & _).
  destruct HR as (n & HR). destruct (ring_entry ks1 n PRIMARY k1 I1 HR) as (o & _ & HO & _). pose proof (inv_type ks1 I1 o k1 (assoc_In Nat.eqb_eq HO)) as HT1. rewrite T1 in HT1. destruct k1 as [a1| | | | |]; try discriminate HT1.
  assert (exists kb1 hb1, aes_material a1 kb1 hb1) as (kb1 & hb1 & HM1).
  { cbn [key_hash_id] in HH1. unfold aes_hash_id in HH1. apply bind_Ok in HH1 as (kb1 & EK & HH1). apply bind_Ok in HH1 as (hb1 & EB & _). exists kb1, hb1. split; assumption. }
  cbn [key_Encrypt] in EO. assert (HZ : aes_size_ok kb1).
  { unfold aes_size_ok. destruct (Z.eq_dec (len kb1) 16); [left; assumption|]. destruct (Z.eq_dec (len kb1) 24); [right; left; assumption|]. destruct (Z.eq_dec (len kb1) 32); [right; right; assumption|].
    exfalso. rewrite (C17_bad_key_length_refused _ a1 kb1 hb1 _ m HM1) in EO; [discriminate EO|]. unfold aes_size_ok. lia. }
  destruct (AesKey_Encrypt_ok (e_lib e) a1 (e_tape e) m kb1 hb1 HM1 HZ) as (hdr & EH1 & L5 & HX). cbv zeta in HX. destruct HX as [_ EX]. rewrite EX in EO. apply Ok_inj in EO.
  set (m1 := hdr ++ RandBytes (e_tape e) 16 ++ aes_body kb1 (RandBytes (e_tape e) 16) m) in *.
  assert (m1 = body /\ hmac_sha1 hb1 m1 = tag) as [EM ET].
  { apply app_inv_length in EO; [exact EO|]. pose proof (f_equal (@List.length byte) EO) as LO. rewrite !app_length in LO. pose proof (len_hmac hb1 m1). unfold len in *. lia. }
  destruct (aes_header_ok a1 kb1 hb1 HM1) as (id' & EH' & LI' & HI' & _). rewrite EH1 in EH'. apply Ok_inj in EH'.
  assert (id = id').
  { assert (slice_to (body ++ hmac_sha1 hb body) HEADER_SIZE = hdr) as EQ.
    { rewrite <- EM at 1. unfold m1. rewrite <- app_assoc. apply slice_to_app. symmetry. exact L5. }
    rewrite EI, EH' in EQ. injection EQ as ->. reflexivity. }
  assert (KAes a1 = KAes a) as EK by (apply (HA ks1 _ _ (KAes a) HI EP HK); rewrite HH; subst id; exact HI'). injection EK as ->.
  assert (kb1 = kb) as -> by (destruct HM, HM1; congruence). assert (hb1 = hb) as -> by (destruct HM, HM1; congruence).
  destruct (C17_aes_roundtrip (e_lib e) a kb hb (e_tape e) m HM HZ) as (c' & E1 & E2). rewrite EX in E1. apply Ok_inj in E1. rewrite <- E1, EM, HD in E2. apply Ok_inj in E2 as ->.
  exists ks1, e, d. split; [exact HI|]. unfold Encrypt. rewrite EP. cbn [bind key_Encrypt]. rewrite EX. cbn [bind apply_codec]. rewrite EM. reflexivity.
Qed.
Print Assumptions C91_decrypt.

Lemma app_inv_length' {A} (a b c d : list A) : List.length c = List.length d -> a ++ c = b ++ d -> a = b /\ c = d.
Proof. intros L E. apply app_inv_length; [|exact E]. pose proof (f_equal (@List.length A) E) as LE. rewrite !app_length in LE. lia. Qed.

Lemma same_bytes_header k k' hb : hmac_bytes k = Ok hb -> hmac_bytes k' = Ok hb -> key_header (KHmac k) = key_header (KHmac k').
Proof. intros E E'. unfold key_header. cbn [key_hash_id]. unfold hmac_hash_id. rewrite E, E'. reflexivity. Qed.

(** What [InternalVerify] accepts. *)
Lemma accepted ks header sig data nonce : inv ks -> ks_type ks = HMAC_SHA1 -> InternalVerify ks header sig data nonce = Ok true ->
  exists k hb, In (KHmac k) (keys_of ks) /\ hmac_bytes k = Ok hb /\ key_header (KHmac k) = Ok header /\ sig = hmac_sha1 hb (signed_text data nonce).
Proof.
  intros I T HV. unfold InternalVerify in HV. apply bind_Ok in HV as (k & EH & HV). apply bind_Ok in HV as (p & EP & HV).
  destruct (header_key ks _ k I EH) as (id & -> & HK & HH). destruct (hmac_of_set ks k I T HK) as (h & hb & -> & EB). specialize (EB _ HH). cbn [key_Verify] in HV.
  apply (hmac_true h hb _ _ EB) in HV. exists h, hb. split; [exact HK|]. split; [exact EB|]. split.
  - destruct (key_header_ok (KHmac h) _ HH) as (id' & E & _ & EH'). rewrite EH'. pose proof (f_equal Base64WSDecode E) as D. rewrite !base64_roundtrip in D. apply Ok_inj in D as ->. reflexivity.
  - rewrite HV. f_equal. unfold signed_text. destruct nonce as [n|]; [apply PackByteArray_inv in EP as [_ ->]; reflexivity | apply Ok_inj in EP as <-; reflexivity].
Qed.

(** A detached signature that an HMAC set accepts is the one Sign returned when it was asked to sign the data, or is for a
    text of the same bytes that was signed in another way, or is forged. *)
Theorem C91_verify : forall H ks data text decoder s, reached ks -> ks_type ks = HMAC_SHA1 ->
  apply_codec decoder text = Ok s -> Verify ks data text decoder = Ok true ->
  (exists ks1 e encoder, In (ks1, CSign e data encoder) H /\ Sign e ks1 data None = Ok s) \/
  (exists ks1 e m n encoder, In (ks1, CAttachedSign e m n encoder) H /\ signed_text m n = data ++ [x00]) \/
  (exists ks1 e encoder, In (ks1, CUnversionedSign e (data ++ [x00]) encoder) H) \/
  forged H ks s (data ++ [x00]).
Proof.
  intros H ks data text decoder s R T EC HV. pose proof (reached_inv ks R) as I. unfold Verify in HV. rewrite EC in HV. cbn [bind] in HV.
  destruct (len s <? HEADER_SIZE) eqn:EL; [discriminate HV|]. destruct (accepted _ _ _ _ _ I T HV) as (k & hb & HK & EB & EH & ES). change (signed_text data None) with (data ++ [x00]) in ES.
  assert (s = slice_to s HEADER_SIZE ++ hmac_sha1 hb (data ++ [x00])) as EQ by (rewrite <- ES; symmetry; apply slice_to_from).
  destruct (asked_dec H hb (data ++ [x00])) as [(ks1 & c & k1 & HI & EP & EB1 & HC)|A]; [|do 3 right; exists k, hb, (slice_to s HEADER_SIZE); auto].
  remember (data ++ [x00]) as t eqn:ET. destruct HC as [e m d|e m n d|e m d].
  - left. apply app_inj_tail in ET as [-> _]. exists ks1, e, d. split; [exact HI|]. unfold Sign, InternalSign. rewrite EP. cbn [bind].
    rewrite (same_bytes_header k1 k hb EB1 EB), EH. cbn [bind PackByteArray key_Sign app]. change VERSION_BYTE with [x00]. rewrite (HmacKey_Sign_ok k1 hb _ EB1). cbn [bind apply_codec]. rewrite EQ at 2. reflexivity.
  - right. left. exists ks1, e, m, n, d. split; [exact HI | reflexivity].
  - do 2 right. left. exists ks1, e, d. exact HI.
Qed.
Print Assumptions C91_verify.

(** The call does not sign anything in another way than with AttachedSign and a nonce of the given length. *)
Definition attaches (l : Z) (c : call) : Prop :=
  match c with
  | CSign _ _ _ | CUnversionedSign _ _ _ | CAttachedSign _ _ None _ => False
  | CAttachedSign _ _ (Some n) _ => len n = l
  | _ => True
  end.

(** Where only AttachedSign is offered, with nonces of one length: the data that AttachedVerify returns for a nonce were
    given to AttachedSign with this nonce, or the signature is forged. *)
Theorem C91_attached : forall H ks text nonce decoder s data, (forall u, In u H -> attaches (len nonce) (snd u)) ->
  reached ks -> ks_type ks = HMAC_SHA1 ->
  apply_codec decoder text = Ok s -> AttachedVerify ks text (Some nonce) decoder = Ok (Some data) ->
  (exists ks1 e encoder, In (ks1, CAttachedSign e data (Some nonce) encoder) H) \/ forged H ks s (signed_text data (Some nonce)).
Proof.
  intros H ks text nonce decoder s data HO R T EC HV. pose proof (reached_inv ks R) as I. unfold AttachedVerify in HV. rewrite EC in HV. cbn [bind] in HV.
  apply bind_Ok in HV as ([d off] & EU & HV). cbv zeta in HV. apply bind_Ok in HV as (b & EV & HV). apply Ok_inj in HV. destruct b; [|discriminate HV]. apply Some_inj in HV as ->.
  destruct (accepted _ _ _ _ _ I T EV) as (k & hb & HK & EB & EH & ES).
  assert (s = slice_to s off ++ hmac_sha1 hb (signed_text data (Some nonce))) as EQ by (rewrite <- ES; symmetry; apply slice_to_from).
  destruct (asked_dec H hb (signed_text data (Some nonce))) as [(ks1 & c & k1 & HI & EP & EB1 & HC)|A]; [|right; exists k, hb, (slice_to s off); auto].
  left. pose proof (HO _ HI) as HA. cbn [snd] in HA. remember (signed_text data (Some nonce)) as t eqn:ET. destruct HC as [e m d|e m n d|e m d]; [destruct HA| |destruct HA].
  destruct n as [n|]; [|destruct HA]. cbn [attaches] in HA. unfold signed_text in ET. rewrite HA, !app_assoc in ET. apply app_inj_tail in ET as [ET _].
  apply app_inv_length' in ET; [|unfold len in HA; lia]. destruct ET as [ET ->]. apply app_inv_length' in ET; [|reflexivity]. destruct ET as [-> _]. exists ks1, e, d. exact HI.
Qed.
Print Assumptions C91_attached.

(** An unversioned signature that is accepted is the one UnversionedSigner.Sign returned for the data, or is for a text of
    the same bytes signed by a Signer, or is forged. *)
Theorem C91_unversioned : forall H ks data text decoder s, reached ks -> ks_type ks = HMAC_SHA1 ->
  apply_codec decoder text = Ok s -> UnversionedVerify ks data text decoder = Ok true ->
  (exists ks1 e encoder, In (ks1, CUnversionedSign e data encoder) H /\ UnversionedSign e ks1 data None = Ok s) \/
  (exists ks1 e m encoder, In (ks1, CSign e m encoder) H /\ data = m ++ [x00]) \/
  (exists ks1 e m n encoder, In (ks1, CAttachedSign e m n encoder) H /\ data = signed_text m n) \/
  forged H ks s data.
Proof.
  intros H ks data text decoder s R T EC HV. pose proof (reached_inv ks R) as I. unfold UnversionedVerify in HV. rewrite EC in HV. cbn [bind] in HV.
  assert (exists o k, In (o, k) (ks_vkeys ks) /\ key_Verify k data s = Ok true) as (o & k & HI & EV).
  { revert HV. generalize (ks_vkeys ks). intros l. induction l as [|[o k] l IH]; intros HV; [discriminate HV|]. cbn [verify_any] in HV. apply bind_Ok in HV as (b & E & HV).
    destruct b; [exists o, k; split; [left; reflexivity | exact E]|]. destruct (IH HV) as (o' & k' & HI & E'). exists o', k'. split; [right; exact HI | exact E']. }
  assert (HK : In k (keys_of ks)) by (apply in_map_iff; exists (o, k); split; [reflexivity | exact HI]). destruct (inv_hash1 ks I o k HI) as (h & _ & HH & _).
  destruct (hmac_of_set ks k I T HK) as (x & hb & -> & EB). specialize (EB _ HH). cbn [key_Verify] in EV. apply (hmac_true x hb _ _ EB) in EV.
  destruct (asked_dec H hb data) as [(ks1 & c & k1 & HI1 & EP & EB1 & HC)|A]; [|do 3 right; exists x, hb, []; auto].
  destruct HC as [e m d|e m n d|e m d].
  - right. left. exists ks1, e, m, d. auto.
  - do 2 right. left. exists ks1, e, m, n, d. auto.
  - left. exists ks1, e, d. split; [exact HI1|]. unfold UnversionedSign. rewrite EP. cbn [bind key_Sign]. rewrite (HmacKey_Sign_ok k1 hb _ EB1). cbn [bind apply_codec]. rewrite EV. reflexivity.
Qed.
Print Assumptions C91_unversioned.

(** The hypotheses above are met when everything was asked of one object, before the changes that are still to
    come, and its keys have different identifiers. *)
Definition one_object (H : list use) (ks : keyset) : Prop :=
  exists c rd ks0 ops, open_keyset c rd = Ok ks0 /\ ks = run ks0 ops /\
    forall ks1 call1, In (ks1, call1) H -> exists ops1 ops2, ops = ops1 ++ ops2 /\ ks1 = run ks0 ops1.
Theorem C91_one_object : forall H ks, one_object H ks -> ids_distinct ks -> service (ks_type ks) H /\ ids_agree H ks /\ reached ks.
Proof.
  intros H ks (c & rd & ks0 & ops & HO & -> & HU) D. assert (R : forall ops, reached (run ks0 ops)) by (intros o; exists c, rd, ks0, o; auto). split; [|split; [|apply R]].
  - intros ks1 c1 HI. destruct (HU _ _ HI) as (ops1 & ops2 & -> & ->). split; [apply R|]. rewrite (proj1 (proj2 (proj2 (name_run (ops1 ++ ops2) ks0 (inv_open c rd ks0 HO))))), (proj1 (proj2 (proj2 (name_run ops1 ks0 (inv_open c rd ks0 HO))))). reflexivity.
  - intros ks1 c1 k1 k HI EP HK HH. destruct (HU _ _ HI) as (ops1 & ops2 & -> & ->). pose proof (reached_inv _ (R ops1)) as I1. apply (primary_key_spec _ k1 I1) in EP as (n & HR).
    assert (exists o, In (o, k1) (ks_vkeys (run ks0 (ops1 ++ ops2)))) as (o & HK1) by (apply (vkeys_held c rd ks0 (ops1 ++ ops2) k1 HO); exists ops1, ops2, n, PRIMARY; split; [reflexivity | exact HR]).
    apply in_map_iff in HK as ([o' k'] & E & HK). cbn [snd] in E. subst k'. pose proof (reached_inv _ (R (ops1 ++ ops2))) as I2. destruct (inv_hash1 _ I2 _ _ HK) as (h & _ & HE & _).
    pose proof (ids_lookup _ o' k h I2 D HK HE) as A. rewrite <- HH in HE. pose proof (ids_lookup _ o k1 h I2 D HK1 HE) as B. congruence.
Qed.
Print Assumptions C91_one_object.

(** ** Concrete cases *)

(** A service that was asked once to encrypt with a set of two AES keys: the ciphertext is accepted, and accepted as the
    first possibility says, since nobody has forged anything.  Likewise for a set of HMAC keys. *)
Example C91_case :
  (exists ks ks', reached ks /\ ks_type ks = HMAC_SHA1 /\ ks' = run ks [OpDemote 2] /\ service HMAC_SHA1 [(ks, CSign zero_env (bs "hello") None)] /\
     exists s, Sign zero_env ks (bs "hello") None = Ok s /\ reached ks' /\ ks_type ks' = HMAC_SHA1 /\ Verify ks' (bs "hello") s None = Ok true /\
       asked_to_sign [(ks, CSign zero_env (bs "hello") None)] (match primary_key ks with Ok (KHmac k) => match hmac_bytes k with Ok b => b | _ => [] end | _ => [] end) (bs "hello" ++ [x00])) /\
  attaches 3 (CAttachedSign zero_env (bs "hello") (Some (bs "abc")) None) /\
  (let H := [(aes_set, CEncrypt (one_env 0) (bs "attack at dawn") None)] in one_object H (run aes_set [OpPromote 1]) /\ ids_distinct (run aes_set [OpPromote 1]) /\ ks_type aes_set = AES /\
     exists c, Encrypt (one_env 0) aes_set (bs "attack at dawn") None = Ok c /\ Decrypt (run aes_set [OpPromote 1]) c None = Ok (bs "attack at dawn")).
Proof.
  split; [|split; [reflexivity|]].
  2: { cbv zeta. split; [exists Crypter, (file_reader test_disk (bs "/aes")), aes_set, [OpPromote 1]; split; [exact aes_set_opens|]; split; [reflexivity|]; intros ks1 c1 [E|[]]; injection E as <- <-; exists [], [OpPromote 1]; split; reflexivity|].
       split; [apply ids_run; [exact (inv_open _ _ _ aes_set_opens) | exact aes_distinct]|]. split; [reflexivity|].
       destruct C30_case as (M & D & HN & (k & HR) & (ct & HE) & _). exists ct. split; [exact HE|].
       refine (proj2 (proj2 (C30_data_stays_decryptable aes_set _ 2 k (one_env 0) _ ct M D HN HR HE _)) eq_refl).
       change (run aes_set [OpPromote 1]) with (fst (step aes_set (OpPromote 1))). apply (LaterOp 2 aes_set aes_set (OpPromote 1)); [apply LaterNow | exact Logic.I | discriminate]. } exists hmac_set, (run hmac_set [OpDemote 2]). split; [exact hmac_set_reached|]. split; [reflexivity|]. split; [reflexivity|].
  split; [intros ks c [E|[]]; injection E as <- <-; split; [exact hmac_set_reached | reflexivity]|].
  destruct (Sign zero_env hmac_set (bs "hello") None) as [s|x] eqn:E; [|vm_compute in E; discriminate E]. exists s. split; [reflexivity|].
  split; [destruct hmac_set_reached as (c & rd & ks0 & ops & H & EQ); exists c, rd, ks0, (ops ++ [OpDemote 2]); split; [exact H|]; rewrite EQ; unfold run; rewrite fold_left_app; reflexivity|].
  split; [reflexivity|]. split; [vm_compute in E; apply Ok_inj in E as <-; vm_compute; reflexivity|].
  destruct (primary_key hmac_set) as [[k|k|k|k|k|k]|x] eqn:EP; try (vm_compute in EP; discriminate EP). destruct (hmac_bytes k) as [b|x] eqn:EB; [|vm_compute in EP; apply Ok_inj in EP; injection EP as <-; vm_compute in EB; discriminate EB].
  exists hmac_set, (CSign zero_env (bs "hello") None), k. split; [left; reflexivity|]. split; [exact EP|]. split; [exact EB | constructor].
Qed.
