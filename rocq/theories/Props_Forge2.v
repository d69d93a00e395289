(** * Props_Forge2: the same for signed sessions, and for keys of any type (C91). *)
From Coq Require Import Strings.String.
From Coq Require Import List ZArith NArith Bool Lia ZifyBool ZifyNat ZifyN.
From Coq.Init Require Import Byte.
From Verif Require Import PyBase PyFacts Base64 Base64Facts Sha1 Util UtilFacts Json JsonFacts KeyInfo KeyData Aes SymKeys SymFacts AsymKeys Keys KeysFacts Keyczar KeyRing KeyczarFacts
  Session Props_Util Props_Sym Props_Keyset Props_Sign Disk DiskFacts Props_Disk Props_Session Threads Props_Threads Props_Forge.
Import ListNotations.
Local Open Scope Z_scope.
Ltac Zify.zify_post_hook ::= idtac.

(** ** Signed sessions *)

(** A message sent in a signed session: [SignedSessionEncrypter.Encrypt] with the session, the signer as it was at
    the time, the random bytes and the plaintext. *)
Record message := MkMessage { ms_session : session; ms_signer : keyset; ms_env : env; ms_sign_env : env; ms_text : str }.

(** What the signer is asked to sign for it: the ciphertext, with the nonce of the session. *)
Definition signing (m : message) : list use :=
  match Session_Encrypt (ms_env m) (ms_session m) (ms_text m) None with
  | Ok ct => [(ms_signer m, CAttachedSign (ms_sign_env m) ct (se_nonce (ms_session m)) b64_encoder)]
  | Raise _ => []
  end.

(** A session that SignedSessionEncrypter has made. *)
Definition started (s : session) : Prop := exists r e encrypter material, SignedSessionEncrypter r e encrypter = Ok (s, material).

Lemma started_good s : started s -> good_session s /\ exists n, se_nonce s = Some n /\ len n = 16.
Proof.
  intros (r & e & encrypter & m & H). destruct (SignedSessionEncrypter_inv _ _ _ _ _ H) as (j & E & _). clear H.
  destruct (New_good r) as (s0 & n & E0 & G & EN & L). rewrite E in E0. apply Ok_inj in E0. subst s0. split; [exact G|]. exists n. split; assumption.
Qed.

(** The signer signs nothing else for a message. *)
Theorem C91_signing : forall m, 
  (forall blob, SignedSession_Encrypt (ms_env m) (ms_sign_env m) (ms_session m) (ms_signer m) (ms_text m) = Ok blob ->
     exists u, signing m = [u] /\ gives (fst u) (snd u) = Ok (AText blob)) /\
  forall u, In u (signing m) -> res_map AText (SignedSession_Encrypt (ms_env m) (ms_sign_env m) (ms_session m) (ms_signer m) (ms_text m)) = gives (fst u) (snd u).
Proof.
  intros [s signer e e' p]. unfold signing, SignedSession_Encrypt, Session_Encrypt. cbn [ms_session ms_signer ms_env ms_sign_env ms_text]. split.
  - intros blob H. apply bind_Ok in H as (c & EC & H). apply bind_Ok in H as (ct & EE & H). rewrite EC. cbn [bind]. rewrite EE. eexists. split; [reflexivity|]. cbn [fst snd gives]. rewrite H. reflexivity.
  - intros u HU. destruct (session_crypter s) as [c|x]; cbn [bind] in *; [|destruct HU]. destruct (Encrypt e c p None) as [ct|x]; cbn [bind]; [|destruct HU]. destruct HU as [<-|[]]. reflexivity.
Qed.
Print Assumptions C91_signing.

(** A signer whose HMAC keys sign messages of sessions only: what SignedSessionDecrypter.Decrypt returns in a session was
    sent in this session, or a signature is forged.  (No two sessions have one nonce: they are 16 random bytes.) *)
Theorem C91_session : forall sent s verifier blob b p,
  (forall m, In m sent -> started (ms_session m)) -> started s -> (forall m, In m sent -> se_nonce (ms_session m) = se_nonce s -> ms_session m = s) ->
  reached verifier -> ks_type verifier = HMAC_SHA1 -> Base64WSDecode blob = Ok b ->
  SignedSession_Decrypt s verifier blob = Ok (Some p) ->
  (exists m, In m sent /\ ms_session m = s /\ ms_text m = p) \/
  exists ct, Session_Decrypt s ct None = Ok p /\ forged (flat_map signing sent) verifier b (signed_text ct (se_nonce s)).
Proof.
  intros sent s verifier blob b p HM HS HU R T EB H. destruct (C41_accepts_only s verifier blob p H) as (ct & EV & ED).
  destruct (started_good s HS) as (G & n & EN & L). rewrite EN in *.
  assert (O : forall u, In u (flat_map signing sent) -> attaches (len n) (snd u)).
  { intros u HI. apply in_flat_map in HI as (m & Hm & HI). unfold signing in HI. destruct (Session_Encrypt _ _ _ _) as [c|x]; [|destruct HI]. destruct HI as [<-|[]]. cbn [snd attaches].
    destruct (started_good _ (HM m Hm)) as (_ & n' & -> & L'). congruence. }
  destruct (C91_attached (flat_map signing sent) verifier blob n b64_decoder b ct O R T EB EV) as [(ks1 & e & d & HI)|F]; [left | right; exists ct; split; assumption].
  apply in_flat_map in HI as (m & Hm & HI). exists m. split; [exact Hm|]. unfold signing in HI. destruct (Session_Encrypt _ _ _ _) as [c|x] eqn:EE; [|destruct HI]. destruct HI as [E|[]]. injection E as _ _ -> EQ _.
  pose proof (HU m Hm EQ) as ES. split; [exact ES|]. rewrite ES in EE. destruct (good_roundtrip (ms_env m) s (ms_text m) G) as (raw & E1 & _ & E2 & _). rewrite EE in E1. apply Ok_inj in E1 as <-. rewrite ED in E2. apply Ok_inj in E2 as ->. reflexivity.
Qed.
Print Assumptions C91_session.

(** ** Keys of any type *)

(** The holders were asked to sign the text, when a key with the given identifier was primary. *)
Definition asked_with (H : list use) (h text : str) : Prop :=
  exists ks c k, In (ks, c) H /\ primary_key ks = Ok k /\ key_hash_id k = Ok h /\ covers c text.

Lemma asked_with_dec H h t : {asked_with H h t} + {~ asked_with H h t}.
Proof.
  induction H as [|[ks c] H IH]; [right; intros (ks & c & k0 & [] & _)|].
  destruct IH as [A|A]; [left; destruct A as (ks' & c' & k0 & HI & X); exists ks', c', k0; split; [right; exact HI | exact X]|].
  assert (D : {exists k0, primary_key ks = Ok k0 /\ key_hash_id k0 = Ok h /\ covers c t} + {~ exists k0, primary_key ks = Ok k0 /\ key_hash_id k0 = Ok h /\ covers c t}).
  { destruct (primary_key ks) as [k0|e] eqn:EP; [|right; intros (k' & C & _); discriminate C].
    destruct (covers_dec c t) as [CV|CV]; [|right; intros (k' & _ & _ & C); exact (CV C)].
    destruct (key_hash_id k0) as [h0|e0] eqn:E0; [|right; intros (k' & C & C' & _); apply Ok_inj in C; subst k'; congruence].
    destruct (str_dec h0 h) as [->|N]; [left; exists k0; auto | right; intros (k' & C & C' & _); apply Ok_inj in C; subst k'; congruence]. }
  destruct D as [D|D]; [left; destruct D as (k0 & D); exists ks, c, k0; split; [left; reflexivity | exact D]|].
  right. intros (ks' & c' & k0 & [E|HI] & X); [injection E as <- <-; apply D; exists k0; exact X | apply A; exists ks', c', k0; split; assumption].
Qed.

(** A detached signature accepted with a key of any type, private or public: the holders of the key with this identifier
    were asked to sign the data, or to sign a text of the same bytes in another way, or the signature is one the key accepts
    for a text they were not asked to sign. *)
Theorem C91_any_type : forall H ks data text decoder s, reached ks -> apply_codec decoder text = Ok s -> Verify ks data text decoder = Ok true ->
  exists k id sig, In k (keys_of ks) /\ key_hash_id k = Ok (Base64WSEncode id) /\ s = x00 :: id ++ sig /\ key_Verify k (data ++ [x00]) sig = Ok true /\
    ((exists ks1 k1 e encoder, In (ks1, CSign e data encoder) H /\ primary_key ks1 = Ok k1 /\ key_hash_id k1 = key_hash_id k) \/
     (exists ks1 k1 e m n encoder, In (ks1, CAttachedSign e m n encoder) H /\ primary_key ks1 = Ok k1 /\ key_hash_id k1 = key_hash_id k /\ signed_text m n = data ++ [x00]) \/
     (exists ks1 k1 e encoder, In (ks1, CUnversionedSign e (data ++ [x00]) encoder) H /\ primary_key ks1 = Ok k1 /\ key_hash_id k1 = key_hash_id k) \/
     ~ asked_with H (Base64WSEncode id) (data ++ [x00])).
Proof.
  intros H ks data text decoder s R EC HV. pose proof (reached_inv ks R) as I. unfold Verify in HV. rewrite EC in HV. cbn [bind] in HV.
  destruct (len s <? HEADER_SIZE) eqn:EL; [discriminate HV|]. unfold InternalVerify in HV. apply bind_Ok in HV as (k & EH & HV). cbn [bind PackByteArray app] in HV. change VERSION_BYTE with [x00] in HV.
  destruct (header_key ks _ k I EH) as (id & EI & HK & HH). exists k, id, (slice_from s HEADER_SIZE). split; [exact HK|]. split; [exact HH|].
  split; [rewrite <- (slice_to_from s HEADER_SIZE) at 1; rewrite EI; reflexivity|]. split; [exact HV|].
  assert (D : {asked_with H (Base64WSEncode id) (data ++ [x00])} + {~ asked_with H (Base64WSEncode id) (data ++ [x00])}) by apply asked_with_dec. rewrite HH.
  destruct D as [(ks1 & c & k1 & HI & EP & EQ & HC)|A]; [|do 3 right; exact A].
  remember (data ++ [x00]) as t eqn:ET. destruct HC as [e m d|e m n d|e m d].
  - left. apply app_inj_tail in ET as [-> _]. exists ks1, k1, e, d. auto.
  - right. left. exists ks1, k1, e, m, n, d. auto.
  - do 2 right. left. exists ks1, k1, e, d. auto.
Qed.
Print Assumptions C91_any_type.

(** A session under the AES keys of testdata, signed with its HMAC keys: a message sent is accepted, and the
    signer was asked for one signature.  (C91_case has a set and a signature for the other theorem.) *)
Example C91_session_case : exists s blob, started s /\
  let m := MkMessage s hmac_set zero_env zero_env (bs "attack at dawn") in
  (forall m', In m' [m] -> se_nonce (ms_session m') = se_nonce s -> ms_session m' = s) /\ reached hmac_set /\ ks_type hmac_set = HMAC_SHA1 /\
  (exists b, Base64WSDecode blob = Ok b) /\ SignedSession_Decrypt s hmac_set blob = Ok (Some (bs "attack at dawn")) /\ len (flat_map signing [m]) = 1.
Proof.
  destruct C41_case as (n & k & kb & hb & h & b & A & B & C & D & E & F & n2 & G).
  destruct (C41_aes_hmac (e_tape zero_env) zero_env aes_set aes_set n n k kb hb hmac_set hmac_set n2 h b (proj1 D) A B C D E F G) as (s & mat & H1 & _ & H2).
  destruct (H2 zero_env zero_env (bs "attack at dawn") ltac:(reflexivity)) as (blob & H3 & H4). clear H2. exists s, blob.
  split; [eexists _, _, _, _; exact H1|]. cbv zeta. split; [intros m' [<-|[]] _; reflexivity|]. split; [exact hmac_set_reached|]. split; [reflexivity|].
  split; [|split; [exact H4|]].
  - pose proof H4 as X. unfold SignedSession_Decrypt, AttachedVerify in X. destruct (apply_codec b64_decoder blob) as [b'|] eqn:EB; [exists b'; exact EB | discriminate X].
  - pose proof (C91_signing (MkMessage s hmac_set zero_env zero_env (bs "attack at dawn"))) as [X _]. destruct (X blob H3) as (u & EU & _). cbn [flat_map app]. rewrite EU. reflexivity.
Qed.
