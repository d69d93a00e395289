(** * Props_Indep: what a call gives depends on the keys it uses, and on nothing else in the key set (C92). *)
From Coq Require Import Strings.String.
From Coq Require Import List ZArith NArith Bool Lia ZifyBool ZifyNat ZifyN.
From Coq.Init Require Import Byte.
From Verif Require Import PyBase PyFacts Base64 Base64Facts Sha1 Util UtilFacts Json JsonFacts KeyInfo KeyData Aes SymKeys SymFacts AsymKeys Keys KeysFacts Keyczar KeyRing KeyczarFacts
  Props_Util Props_Sym Props_Keyset Props_Sign Disk DiskFacts Props_Disk Props_Open Threads Props_Threads Props_Forge.
Import ListNotations.
Local Open Scope Z_scope.
Ltac Zify.zify_post_hook ::= idtac.

(** ** Specification *)

(** The bytes that a ciphertext, a signature or a signed blob given to a call decodes to. *)
Definition presented (c : call) : option (res str) :=
  match c with
  | CDecrypt s d | CVerify _ s d | CAttachedVerify s _ d => Some (apply_codec d s)
  | _ => None
  end.

(** The calls that use the primary key. *)
Definition makes (c : call) : bool :=
  match c with CEncrypt _ _ _ | CSign _ _ _ | CAttachedSign _ _ _ _ | CUnversionedSign _ _ _ => true | _ => false end.

(** The set has the key, whose header is the given one. *)
Definition has_under (ks : keyset) (h : str) (k : key) : Prop := In k (keys_of ks) /\ key_header k = Ok h.

(** Two sets have the same keys under a header, and not more than one. *)
Definition same_under (h : str) (ks1 ks2 : keyset) : Prop :=
  (forall k, has_under ks1 h k <-> has_under ks2 h k) /\ (forall k k', has_under ks1 h k -> has_under ks1 h k' -> k = k').

(** ** Lemmas *)

Lemma header_of_id k id : len id = 4 -> key_header k = Ok (x00 :: id) <-> key_hash_id k = Ok (Base64WSEncode id).
Proof.
  intros L. split; intros H.
  - unfold key_header in H. destruct (key_hash_id k) as [h|e] eqn:E; [|discriminate H].
    destruct (key_header_ok k h E) as (id' & -> & _ & E'). unfold key_header in E'. rewrite E in E'. cbn [bind] in H, E'. rewrite E' in H. apply Ok_inj in H. injection H as ->. reflexivity.
  - destruct (key_header_ok k _ H) as (id' & E & _ & E'). rewrite E'. pose proof (f_equal Base64WSDecode E) as D. rewrite !base64_roundtrip in D. apply Ok_inj in D as ->. reflexivity.
Qed.

Lemma ParseHeader_same h ks1 ks2 : inv ks1 -> inv ks2 -> len h = 5 -> same_under h ks1 ks2 -> ParseHeader ks1 h = ParseHeader ks2 h.
Proof.
  intros I1 I2 L (S & U). destruct h as [|b id]; [reflexivity|]. rewrite len_cons in L. unfold ParseHeader. change (index (b :: id) 0) with (@Ok byte b). cbn [bind].
  destruct (negb (ord b =? VERSION)) eqn:EV; [reflexivity|].
  assert (b = x00) as -> by (apply negb_false_iff, Z.eqb_eq in EV; apply ord_inj; exact EV).
  assert (slice_from (x00 :: id) 1 = id) as -> by (change (x00 :: id) with ([x00] ++ id); apply (slice_from_app [x00] id 1); reflexivity).
  assert (L4 : len id = 4) by lia.
  assert (F : forall ks k, inv ks -> assoc str_eqb (ks_hkeys ks) (Base64WSEncode id) = Some k -> has_under ks (x00 :: id) k).
  { intros ks k I E. destruct (inv_hash2 ks I _ _ E) as (HH & o & HI). split; [apply in_map_iff; exists (o, k); split; [reflexivity | exact HI] | apply header_of_id; assumption]. }
  assert (G : forall ks k, inv ks -> has_under ks (x00 :: id) k -> exists k', assoc str_eqb (ks_hkeys ks) (Base64WSEncode id) = Some k').
  { intros ks k I (HI & HH). apply in_map_iff in HI as ([o k'] & E & HI). cbn [snd] in E. subst k'. destruct (inv_hash1 ks I o k HI) as (h' & k' & HH' & HA).
    apply header_of_id in HH; [|exact L4]. rewrite HH in HH'. apply Ok_inj in HH' as <-. exists k'. exact HA. }
  unfold GetKey_hash. destruct (assoc str_eqb (ks_hkeys ks1) _) as [k1|] eqn:E1.
  - pose proof (F ks1 k1 I1 E1) as H1. destruct (G ks2 k1 I2 (proj1 (S k1) H1)) as (k2 & E2). rewrite E2. f_equal. apply U; [exact H1 | apply S, F; assumption].
  - destruct (assoc str_eqb (ks_hkeys ks2) _) as [k2|] eqn:E2; [|reflexivity]. exfalso. destruct (G ks1 k2 I1 (proj2 (S k2) (F ks2 k2 I2 E2))) as (k1 & E). congruence.
Qed.

(** All that a reading call does with a set is to look up the header. *)
Lemma reads_by_header c ks1 ks2 r : presented c = Some r ->
  (forall bytes, r = Ok bytes -> 5 <= len bytes -> ParseHeader ks1 (slice_to bytes 5) = ParseHeader ks2 (slice_to bytes 5)) -> gives ks1 c = gives ks2 c.
Proof.
  intros E H. destruct c as [e m d|s d|e m d|m s d|e m n d|s n d|e m d|m s d]; try discriminate E; cbn [presented] in E; apply Some_inj in E as <-; cbn [gives]; f_equal.
  - unfold Decrypt. destruct (apply_codec d s) as [b|x]; cbn [bind]; [|reflexivity]. change HEADER_SIZE with 5. destruct (Z.ltb_spec (len b) 5) as [L|L]; [reflexivity|].
    rewrite (H b eq_refl L). reflexivity.
  - unfold Verify. destruct (apply_codec d s) as [b|x]; cbn [bind]; [|reflexivity]. change HEADER_SIZE with 5. destruct (Z.ltb_spec (len b) 5) as [L|L]; [reflexivity|].
    unfold InternalVerify. rewrite (H b eq_refl L). reflexivity.
  - unfold AttachedVerify. destruct (apply_codec d s) as [b|x]; cbn [bind]; [|reflexivity]. change HEADER_SIZE with 5.
    destruct (UnpackByteArray b 5) as [[data off]|x] eqn:EU; cbn [bind]; [|reflexivity].
    assert (L : 5 <= len b).
    { destruct (Z.le_gt_cases 5 (len b)) as [|L]; [assumption|]. exfalso. unfold UnpackByteArray in EU. apply bind_Ok in EU as (nn & EN & _).
      assert (slice b 5 (5 + 4) = []) as X by (apply length_zero_iff_nil; unfold slice; rewrite firstn_length, skipn_length; unfold clamp; change (5 <? 0) with false; change (5 + 4 <? 0) with false; cbv iota; unfold len in *; lia).
      rewrite X in EN. discriminate EN. }
    unfold InternalVerify. rewrite (H b eq_refl L). reflexivity.
Qed.

Lemma len_first_five (b : str) : 5 <= len b -> len (slice_to b 5) = 5.
Proof. intros L. rewrite slice_to_firstn by lia. unfold len in *. rewrite firstn_length. lia. Qed.

(** ** Theorems *)

(** What a reading call gives, data or a refusal, is the same for two sets that have the same key under
    the first five bytes presented, or both have none.  The other keys, the numbers and states of the
    versions, the purposes and the types do not matter; a text that does not decode, or is too short
    to have a header, is refused in the same way by all sets. *)
Theorem C92_reading : forall ks1 ks2 c r, reached ks1 -> reached ks2 -> presented c = Some r ->
  (forall h rest, r = Ok (h ++ rest) -> len h = 5 -> same_under h ks1 ks2) -> gives ks1 c = gives ks2 c.
Proof.
  intros ks1 ks2 c r R1 R2 E H. apply (reads_by_header c ks1 ks2 r E). intros b -> L.
  apply ParseHeader_same; [apply reached_inv, R1 | apply reached_inv, R2 | apply len_first_five, L|].
  apply (H _ (slice_from b 5)); [rewrite slice_to_from; reflexivity | apply len_first_five, L].
Qed.
Print Assumptions C92_reading.

(** What a call that encrypts or signs gives is the same for two sets with the same primary key. *)
Theorem C92_making : forall ks1 ks2 c n1 n2 k, reached ks1 -> reached ks2 -> makes c = true ->
  ring_of ks1 n1 = Some (PRIMARY, k) -> ring_of ks2 n2 = Some (PRIMARY, k) -> gives ks1 c = gives ks2 c.
Proof.
  intros ks1 ks2 c n1 n2 k R1 R2 M H1 H2.
  assert (P1 : primary_key ks1 = Ok k) by (apply primary_key_spec; [apply reached_inv, R1 | exists n1; exact H1]).
  assert (P2 : primary_key ks2 = Ok k) by (apply primary_key_spec; [apply reached_inv, R2 | exists n2; exact H2]).
  destruct c; try discriminate M; cbn [gives]; f_equal; unfold Encrypt, Sign, AttachedSign, UnversionedSign, InternalSign; rewrite P1, P2; reflexivity.
Qed.
Print Assumptions C92_making.

(** A verifier of signatures without headers accepts what some key of the set accepts: of two sets of
    HMAC keys, the one that has all keys of the other accepts everything that the other accepts, and
    sets with the same keys give the same answers. *)
Lemma bare_true ks m s d : reached ks -> ks_type ks = HMAC_SHA1 ->
  gives ks (CUnversionedVerify m s d) = match apply_codec d s with
    | Ok b => Ok (ATruth (existsb (fun k => match key_Verify k m b with Ok x => x | Raise _ => false end) (keys_of ks)))
    | Raise x => Raise x end.
Proof.
  intros R T. cbn [gives]. unfold UnversionedVerify. destruct (apply_codec d s) as [b|x]; cbn [bind res_map]; [|reflexivity].
  assert (X : forall o k, In (o, k) (ks_vkeys ks) -> exists v, key_Verify k m b = Ok v).
  { intros o k HI. pose proof (reached_inv ks R) as I. destruct (hmac_of_set ks k I T) as (h & hb & -> & HB); [apply in_map_iff; exists (o, k); auto|].
    destruct (inv_hash1 ks I o _ HI) as (id & _ & HH & _). destruct (C16_hmac_verify_is_equality h hb m b (HB id HH)) as (tag & HT & HY & _ & H1 & H2).
    cbn [key_Verify]. destruct (str_dec b tag) as [E|N]; [exists true; apply H1, E | exists false; apply H2, N]. }
  unfold keys_of. induction (ks_vkeys ks) as [|[o k] l IH]; [reflexivity|]. cbn [verify_any map snd existsb].
  destruct (X o k (or_introl eq_refl)) as (v & ->). cbn [bind]. destruct v; [reflexivity|]. cbn [orb]. apply IH. intros o' k' HI. apply (X o' k'). right. exact HI.
Qed.

Theorem C92_bare : forall ks1 ks2 m s d, reached ks1 -> reached ks2 -> ks_type ks1 = HMAC_SHA1 -> ks_type ks2 = HMAC_SHA1 ->
  (forall k, In k (keys_of ks1) -> In k (keys_of ks2)) ->
  (gives ks1 (CUnversionedVerify m s d) = Ok (ATruth true) -> gives ks2 (CUnversionedVerify m s d) = Ok (ATruth true)) /\
  ((forall k, In k (keys_of ks2) -> In k (keys_of ks1)) -> gives ks1 (CUnversionedVerify m s d) = gives ks2 (CUnversionedVerify m s d)).
Proof.
  intros ks1 ks2 m s d R1 R2 T1 T2 S. rewrite !bare_true by assumption. destruct (apply_codec d s) as [b|x]; [|split; intros; congruence].
  set (f := fun k => match key_Verify k m b with Ok x => x | Raise _ => false end).
  assert (A : forall l l' : list key, (forall k, In k l -> In k l') -> existsb f l = true -> existsb f l' = true).
  { intros l l' HS H. apply existsb_exists in H as (k & HI & HF). apply existsb_exists. exists k. split; [apply HS, HI | exact HF]. }
  split.
  - intros H. apply Ok_inj in H. injection H as H. rewrite (A _ _ S H). reflexivity.
  - intros S'. do 2 f_equal. destruct (existsb f (keys_of ks1)) eqn:E; [symmetry; apply (A _ _ S E)|].
    destruct (existsb f (keys_of ks2)) eqn:E2; [|reflexivity]. rewrite (A _ _ S' E2) in E. discriminate E.
Qed.
Print Assumptions C92_bare.

(** The same in terms of what is stored.  Two sets, read from anywhere, have one key text in common, as
    versions of whatever numbers and states; no other key of either set has the same identifier.  Then,
    whatever else is stored for the two sets, and whatever is done with the objects later, the two
    give the same answers to everything that carries the header of this key; and while it is the primary
    key of both they make the same ciphertexts and signatures. *)
Theorem C92_stored : forall c1 rd1 ks1 m1 v1 c2 rd2 ks2 m2 v2 k h,
  open_keyset c1 rd1 = Ok ks1 -> metadata_for c1 rd1 m1 -> In v1 (meta_versions m1) ->
  open_keyset c2 rd2 = Ok ks2 -> metadata_for c2 rd2 m2 -> In v2 (meta_versions m2) ->
  m_type m1 = m_type m2 -> rd_key rd1 (v_num v1) = rd_key rd2 (v_num v2) -> key_at rd1 (m_type m1) v1 k -> key_header k = Ok h ->
  (forall v k', In v (meta_versions m1) -> key_at rd1 (m_type m1) v k' -> key_header k' = Ok h -> k' = k) ->
  (forall v k', In v (meta_versions m2) -> key_at rd2 (m_type m2) v k' -> key_header k' = Ok h -> k' = k) ->
  (forall ops1 ops2 c rest, presented c = Some (Ok (h ++ rest)) -> gives (run ks1 ops1) c = gives (run ks2 ops2) c) /\
  (forall c, v_status v1 = PRIMARY -> v_status v2 = PRIMARY -> makes c = true -> gives ks1 c = gives ks2 c).
Proof.
  intros c1 rd1 ks1 m1 v1 c2 rd2 ks2 m2 v2 k h O1 M1 V1 O2 M2 V2 ET EK A1 HH U1 U2.
  assert (A2 : key_at rd2 (m_type m2) v2 k) by (destruct A1 as (s & i & E1 & E2 & E3); exists s, i; rewrite <- ET, <- EK; auto).
  pose proof (inv_open _ _ _ O1) as I1. pose proof (inv_open _ _ _ O2) as I2.
  assert (X : exists id, h = x00 :: id /\ len id = 4 /\ key_hash_id k = Ok (Base64WSEncode id)).
  { destruct A1 as (s & i & _ & _ & E3). destruct (key_header_ok k i E3) as (id & -> & L & E). rewrite HH in E. apply Ok_inj in E as ->. exists id. auto. }
  destruct X as (id & -> & L & HI).
  assert (G : forall c rd ks m v, open_keyset c rd = Ok ks -> metadata_for c rd m -> inv ks -> In v (meta_versions m) -> key_at rd (m_type m) v k ->
      (forall v k', In v (meta_versions m) -> key_at rd (m_type m) v k' -> key_header k' = Ok (x00 :: id) -> k' = k) ->
      GetKey_hash ks (Base64WSEncode id) = Ok k /\ (v_status v = PRIMARY -> exists n, ring_of ks n = Some (PRIMARY, k))).
  { intros c rd ks m v O M I V A U. destruct (C75_contents c rd ks m O M) as (_ & _ & _ & _ & HR & _).
    assert (HR1 : ring_of ks (v_num v) = Some (v_status v, k)) by (apply HR; exists v; auto).
    split; [|intros E; rewrite E in HR1; exists (v_num v); exact HR1].
    destruct (ring_entry ks _ _ _ I HR1) as (o & _ & HO & _).
    assert (HV : In (o, k) (ks_vkeys ks)) by (exact (assoc_In Nat.eqb_eq HO)).
    destruct (inv_hash1 ks I o k HV) as (i & k' & E & HA). rewrite HI in E. apply Ok_inj in E as <-.
    assert (HG : GetKey_hash ks (Base64WSEncode id) = Ok k') by (unfold GetKey_hash; rewrite HA; reflexivity).
    rewrite HG. f_equal. apply (C75_identifiers c rd ks m _ _ O M) in HG as (pre & w & post & EM & HW & HK & _).
    apply (U w); [rewrite EM; apply in_or_app; right; left; reflexivity | exact HW | apply header_of_id; assumption]. }
  destruct (G _ _ _ _ _ O1 M1 I1 V1 A1 U1) as (G1 & P1). destruct (G _ _ _ _ _ O2 M2 I2 V2 A2 U2) as (G2 & P2). split.
  - intros ops1 ops2 c rest E. apply (reads_by_header c _ _ _ E). intros b EB _. apply Ok_inj in EB as <-.
    assert (slice_to ((x00 :: id) ++ rest) 5 = x00 :: id) as -> by (apply slice_to_app; rewrite len_cons; lia).
    unfold ParseHeader. change (index (x00 :: id) 0) with (@Ok byte x00). cbn [bind]. change (negb (ord x00 =? VERSION)) with false. cbv iota.
    assert (slice_from (x00 :: id) 1 = id) as -> by (change (x00 :: id) with ([x00] ++ id); apply (slice_from_app [x00] id 1); reflexivity).
    rewrite (hash_run ks1 ops1 _ k I1 G1), (hash_run ks2 ops2 _ k I2 G2). reflexivity.
  - intros c E1 E2 MC. destruct (P1 E1) as (n1 & N1). destruct (P2 E2) as (n2 & N2).
    apply (C92_making ks1 ks2 c n1 n2 k); try assumption; [exists c1, rd1, ks1, [] | exists c2, rd2, ks2, []]; auto.
Qed.
Print Assumptions C92_stored.

(** testdata/hmac, and a set that has its second key alone, as version 7. *)
Definition alone_reader : reader :=
  MkReader (Ok (bs "{""encrypted"": false, ""versions"": [{""status"": ""PRIMARY"", ""versionNumber"": 7, ""exportable"": false}], ""type"": ""HMAC_SHA1"", ""name"": ""Other"", ""purpose"": ""SIGN_AND_VERIFY""}"))
    (fun n => if n =? 7 then Ok hmac_2 else Raise IOError) false.

Example C92_case : exists ks1 m1 v1 ks2 m2 v2 k h,
  open_keyset GenericKeyczar hmac_reader = Ok ks1 /\ metadata_for GenericKeyczar hmac_reader m1 /\ In v1 (meta_versions m1) /\
  open_keyset Signer alone_reader = Ok ks2 /\ metadata_for Signer alone_reader m2 /\ In v2 (meta_versions m2) /\
  m_type m1 = m_type m2 /\ rd_key hmac_reader (v_num v1) = rd_key alone_reader (v_num v2) /\ key_at hmac_reader (m_type m1) v1 k /\ key_header k = Ok h /\
  (forall v k', In v (meta_versions m1) -> key_at hmac_reader (m_type m1) v k' -> key_header k' = Ok h -> k' = k) /\
  (forall v k', In v (meta_versions m2) -> key_at alone_reader (m_type m2) v k' -> key_header k' = Ok h -> k' = k) /\
  v_status v1 = PRIMARY /\ v_status v2 = PRIMARY /\ (exists s, gives ks1 (CSign zero_env (bs "hello") None) = Ok (AText (h ++ s)) /\ gives ks2 (CVerify (bs "hello") (h ++ s) None) = Ok (ATruth true)).
Proof.
  destruct (meta_Read hmac_meta) as [m1|] eqn:E1; [|vm_compute in E1; discriminate E1].
  destruct (rd_meta alone_reader) as [s2|] eqn:ES; [|discriminate ES].
  destruct (meta_Read s2) as [m2|] eqn:E2; [|apply Ok_inj in ES as <-; vm_compute in E2; discriminate E2].
  destruct (open_keyset Signer alone_reader) as [ks2|] eqn:O2; [|vm_compute in O2; discriminate O2].
  destruct (ReadKey HMAC_SHA1 hmac_1) as [k1|] eqn:K1; [|vm_compute in K1; discriminate K1].
  destruct (ReadKey HMAC_SHA1 hmac_2) as [k2|] eqn:K2; [|vm_compute in K2; discriminate K2].
  destruct (key_hash_id k2) as [i2|] eqn:H2; [|vm_compute in K2; apply Ok_inj in K2 as <-; vm_compute in H2; discriminate H2].
  destruct (key_header k2) as [h|] eqn:HD; [|vm_compute in K2; apply Ok_inj in K2 as <-; vm_compute in HD; discriminate HD].
  assert (N1 : key_header k1 <> Ok h) by (vm_compute in K1; apply Ok_inj in K1 as <-; vm_compute in K2; apply Ok_inj in K2 as <-; vm_compute in HD; apply Ok_inj in HD as <-; vm_compute; discriminate).
  assert (M1 : m_type m1 = HMAC_SHA1 /\ meta_versions m1 = [MkVersion 1 ACTIVE false; MkVersion 2 PRIMARY false] /\ m_purpose m1 = SIGN_AND_VERIFY /\ m_encrypted m1 = false) by (vm_compute in E1; apply Ok_inj in E1 as <-; repeat split).
  assert (M2 : m_type m2 = HMAC_SHA1 /\ meta_versions m2 = [MkVersion 7 PRIMARY false] /\ m_purpose m2 = SIGN_AND_VERIFY /\ m_encrypted m2 = false) by (apply Ok_inj in ES as <-; vm_compute in E2; apply Ok_inj in E2 as <-; repeat split).
  destruct M1 as (T1 & V1 & P1 & C1). destruct M2 as (T2 & V2 & P2 & C2).
  exists hmac_set, m1, (MkVersion 2 PRIMARY false), ks2, m2, (MkVersion 7 PRIMARY false), k2, h. rewrite T1, T2, V1, V2.
  split; [exact hmac_set_opens|]. split; [exists hmac_meta; split; [reflexivity|]; split; [exact E1|]; rewrite P1, C1; split; [cbn; tauto | discriminate]|].
  split; [right; left; reflexivity|]. split; [reflexivity|]. split; [exists s2; split; [exact ES|]; split; [exact E2|]; rewrite P2, C2; split; [cbn; tauto | discriminate]|].
  split; [left; reflexivity|]. split; [reflexivity|]. split; [reflexivity|].
  split; [exists hmac_2, i2; split; [reflexivity|]; split; assumption|]. split; [exact HD|].
  split. { intros v k' [<-|[<-|[]]] (s & i & ER & EK & _) EH; [change (Ok hmac_1 = Ok s) in ER | change (Ok hmac_2 = Ok s) in ER]; apply Ok_inj in ER as <-; [rewrite K1 in EK | rewrite K2 in EK]; apply Ok_inj in EK as <-; [contradiction | reflexivity]. }
  split. { intros v k' [<-|[]] (s & i & ER & EK & _) EH. change (Ok hmac_2 = Ok s) in ER. apply Ok_inj in ER as <-. rewrite K2 in EK. apply Ok_inj in EK as <-. reflexivity. }
  split; [reflexivity|]. split; [reflexivity|].
  destruct (gives hmac_set (CSign zero_env (bs "hello") None)) as [[s|b|o]|] eqn:EG; [|vm_compute in EG; discriminate EG..].
  exists (slice_from s 5). vm_compute in EG. apply Ok_inj in EG. injection EG as <-. vm_compute in K2. apply Ok_inj in K2 as <-. vm_compute in HD. apply Ok_inj in HD as <-. split; [reflexivity|].
  vm_compute in O2. apply Ok_inj in O2 as <-. vm_compute. reflexivity.
Qed.
