(** * Props_Sign: properties C35-C39 (signatures made and checked with key sets). *)
From Coq Require Import Strings.String.
From Coq Require Import List ZArith Znumtheory NArith Bool Lia ZifyBool ZifyNat ZifyN.
From Coq.Init Require Import Byte.
From Verif Require Import PyBase PyFacts Base64 Base64Facts Sha1 Util UtilFacts Json KeyInfo SymKeys SymFacts ModArith Der AsymSpec AsymKeys AsymFacts
  Keys KeysFacts KeyData Keyczar KeyRing KeyczarFacts ErrFacts ModFacts Props_Util Props_Asym Props_Keyset.
From Verif Require DiskFacts.
Import ListNotations.
Local Open Scope Z_scope.
Ltac Zify.zify_post_hook ::= idtac.

(** ** Preliminaries *)

(** The key used to check: the key itself or its public half. *)
Definition checks (k k' : key) : Prop := k' = k \/ public_key k = Ok k'.

(** Keys that sign so that they accept their own signatures.  For DSA this excludes the case
    r = 0 or s = 0, which PyCrypto does not retry (C21). *)
Definition signs_soundly (e : env) (k : key) (msg : str) : Prop :=
  match k with
  | KHmac _ => True
  | KRsaPriv k => exists size, In size rsa_sizes /\ rsa_key_ok size k
  | KDsaPriv k => dsa_key_ok k /\ forall r s, DsaPrivateKey_Sign k (e_int e) msg = MakeDsaSig r s -> r <> 0 /\ s <> 0
  | _ => False
  end.

Lemma public_verify k k' m s : checks k k' -> key_Verify k' m s = key_Verify k m s.
Proof. intros [->|H]; [reflexivity|]. destruct k; cbn [public_key] in H; try discriminate; apply Ok_inj in H as <-; reflexivity. Qed.

Lemma public_id k k' : checks k k' -> key_hash_id k' = key_hash_id k.
Proof. intros [->|H]; [reflexivity|]. destruct k; cbn [public_key] in H; try discriminate; apply Ok_inj in H as <-; reflexivity. Qed.

Lemma signed_verifies e k msg sig : signs_soundly e k msg -> key_Sign e k msg = Ok sig -> key_Verify k msg sig = Ok true.
Proof.
  destruct k as [k|k|k|k|k|k]; cbn [signs_soundly key_Sign key_Verify]; intros H HS; try contradiction.
  - unfold HmacKey_Verify. rewrite HS. cbn [bind]. f_equal. apply VerifySignedData_spec. reflexivity.
  - destruct H as [HK HN]. destruct (C21_dsa_sign_verify_partial k (e_int e) msg sig HK HS) as (r & s & HM & _ & _ & HV & _).
    destruct (HN r s) as [Hr Hs]; [congruence|]. apply HV; assumption.
  - destruct H as (size & HI & HK). destruct (C20_rsa_sign_verify size k msg HI HK) as (sg & E & _ & HV).
    rewrite E in HS. apply Ok_inj in HS as <-. rewrite HV. reflexivity.
Qed.

(** Keys whose signatures determine the message up to collisions, and what a collision is: two
    messages with the same HMAC under the key, for an RSA key two with the same SHA-1.  For a DSA
    key that signs with the secret number [kk] it is a power of g that leaves the same remainder
    as g^kk although its exponent differs by the quotient of the difference of the hashes and s;
    this holds of messages with the same SHA-1 modulo q. *)
Definition binding (k : key) : Prop :=
  match k with KHmac _ => True | KRsaPriv r => exists size, In size rsa_sizes /\ rsa_key_ok size r | KDsaPriv d => dsa_key_ok d | _ => False end.
Definition dsa_reuse (d : dsapriv) (z : Z) (x y : str) : Prop :=
  let q := dn_q (dn_pub (ds_key d)) in let p := dn_p (dn_pub (ds_key d)) in let g := dn_g (dn_pub (ds_key d)) in
  let kk := 2 + z mod (q - 2) in
  exists r s t, dsa_sign (ds_key d) (be_val (sha1 x)) kk = Ok (r, s) /\ 0 <= t < q /\
    (t * s) mod q = (be_val (sha1 y) - be_val (sha1 x)) mod q /\
    (g ^ (kk + t) mod p) mod q = (g ^ kk mod p) mod q.
Definition collision (e : env) (k : key) (x y : str) : Prop :=
  x <> y /\ match k with
            | KHmac h => exists b, hmac_bytes h = Ok b /\ hmac_sha1 b x = hmac_sha1 b y
            | KRsaPriv _ => sha1 x = sha1 y
            | KDsaPriv d => dsa_reuse d (e_int e) x y
            | _ => False
            end.

(** What is signed for some data, with a nonce for attached signatures. *)
Definition signed_text (data : str) (nonce : option str) : str :=
  data ++ match nonce with None => [] | Some n => IntToBytes (len n) ++ n end ++ [x00].

Lemma dsa_other d z m m' s : dsa_key_ok d -> DsaPrivateKey_Sign d z m = Ok s -> DsaPublicKey_Verify (ds_pub d) m' s = Ok true -> dsa_reuse d z m m'.
Proof.
  intros [HP HB] HS HV. unfold DsaPrivateKey_Sign in HS. apply bind_Ok in HS as (kk & Hk & HS). apply bind_Ok in HS as ([r s'] & Hrs & HS). cbn [fst snd] in HS.
  unfold DsaPublicKey_Verify in HV. rewrite (proj1 C13_dsa_sig_roundtrip r s' s HS), HB in HV. apply Ok_inj in HV. rewrite bytes_to_long_eq, BytesToLong_val in Hrs, HV.
  unfold randint2 in Hk. destruct (_ <? 2) in Hk; [discriminate|]. apply Ok_inj in Hk. unfold dsa_reuse. cbv zeta. rewrite Hk. clear Hk.
  unfold Hash in *. cbn [concat] in *. rewrite !app_nil_r in *. exists r, s'. pose proof Hrs as Hrs0. destruct HP as [[Pp Pq Hg Ho] Hx Hy]. destruct (ds_key d) as [[y g p q] x].
  cbn [dn_pub dn_y dn_g dn_p dn_q dn_x] in *. unfold dsa_sign in Hrs. cbn [dn_pub dn_x] in Hrs. destruct ((kk <? 2) || (q <=? kk)) eqn:EK; [discriminate|]. apply orb_false_elim in EK as [EK1 EK2]. apply Z.ltb_ge in EK1. apply Z.leb_gt in EK2. cbv zeta in Hrs.
  apply Ok_inj in Hrs. apply pair_inj in Hrs as [Hr Hs]. unfold dsa_verify in HV. destruct ((r <=? 0) || (q <=? r) || (s' <=? 0) || (q <=? s')) eqn:E0; [discriminate|]. cbv zeta in HV. apply Z.eqb_eq in HV.
  pose proof (prime_ge_2 p Pp) as Hp2. pose proof (prime_ge_2 q Pq) as Hq2. assert (Hp1 : 1 < p) by (clear - Hp2; lia). assert (Hq1 : 1 < q) by (clear - Hq2; lia). assert (Hq0 : 0 < q) by (clear - Hq2; lia). assert (Hqn : q <> 0) by (clear - Hq2; lia). assert (Hpn : p <> 0) by (clear - Hp2; lia). assert (Hp0 : 0 < p) by (clear - Hp2; lia).
  assert (Is : 0 < s' < q) by (clear - E0; lia). assert (Ik : 0 < kk < q) by (clear - EK1 EK2; lia).
  destruct (inverse_ok s' q) as [_ Hw]; [clear - Hq2; lia | clear - Is; lia | apply prime_gcd; assumption |].
  destruct (inverse_ok kk q) as [_ Hi]; [clear - Hq2; lia | clear - Ik; lia | apply prime_gcd; assumption |].
  set (M := be_val (sha1 m)) in *. set (M' := be_val (sha1 m')) in *. set (w := inverse s' q) in *. exists (((M' - M) * w) mod q).
  assert (Ht : 0 <= ((M' - M) * w) mod q < q) by (apply Z.mod_pos_bound; exact Hq0). split; [exact Hrs0|]. split; [exact Ht|]. split.
  - rewrite Z.mul_mod_idemp_l by exact Hqn. apply divide_sub_mod; [exact Hq0|]. replace ((M' - M) * w * s' - (M' - M)) with ((M' - M) * (w * s' - 1)) by ring. apply Z.divide_mul_r, Hw.
  - pose proof Hr as Hr0. rewrite powmod_spec in Hr by (clear - Hp2 EK1; lia). rewrite Hr, <- HV. f_equal.
    assert (U1 : 0 <= (M' * w) mod q) by (apply Z.mod_pos_bound; assumption). assert (U2 : 0 <= (r * w) mod q) by (apply Z.mod_pos_bound; assumption).
    assert (Hx0 : 0 <= x) by (clear - Hx; lia). assert (U3 : 0 <= x * ((r * w) mod q)) by (apply Z.mul_nonneg_nonneg; assumption).
    rewrite !powmod_spec by assumption. rewrite <- Z.mul_mod by assumption. rewrite Hy. rewrite <- (Z.mul_mod_idemp_r (g ^ _)) by assumption. rewrite pow_mod_base by assumption.
    rewrite Z.mul_mod_idemp_r by assumption. rewrite <- Z.pow_mul_r by assumption. rewrite <- Z.pow_add_r by assumption.
    apply (pow_order p q); try assumption; [clear - Ik Ht; lia | apply Z.add_nonneg_nonneg; assumption|].
    rewrite Hr0 in Hs. pose proof (dsa_exponents q M x r s' kk w (inverse kk q) Hq0 Hw Hi Hs) as EX.
    rewrite <- Z.add_mod_idemp_l, <- EX, Z.add_mod_idemp_l by exact Hqn.
    rewrite Z.add_mod_idemp_r by exact Hqn. rewrite (Z.add_mod_idemp_l (M' * w)) by exact Hqn.
    replace ((M * w) mod q + x * ((r * w) mod q) + (M' - M) * w) with ((M * w) mod q + (x * ((r * w) mod q) + (M' - M) * w)) by ring. rewrite Z.add_mod_idemp_l by exact Hqn. f_equal. ring.
Qed.

Lemma same_signature e k k' m m' s : binding k -> checks k k' -> key_Sign e k m = Ok s -> key_Verify k' m' s = Ok true -> m' = m \/ collision e k m m'.
Proof.
  intros B C ES EV. rewrite (public_verify k k' _ _ C) in EV. destruct (list_eq_dec byte_eq_dec m m') as [E|E]; [left; congruence|]. right. split; [exact E|].
  destruct k as [a|h|d|d|r|r]; cbn [binding key_Sign key_Verify] in *; try contradiction.
  - assert (exists b, hmac_bytes h = Ok b) as (b & Eb).
    { unfold HmacKey_Sign in ES. destruct (hmac_bytes h) as [b|]; [eexists; reflexivity | discriminate]. }
    exists b. split; [exact Eb|]. rewrite (HmacKey_Sign_ok h b _ Eb) in ES. apply Ok_inj in ES as <-. rewrite (HmacKey_Verify_ok h b _ _ Eb) in EV. apply Ok_inj, VerifySignedData_spec in EV. exact EV.
  - exact (dsa_other d (e_int e) m m' s B ES EV).
  - destruct B as (size & HI & HK). destruct (C20_rsa_sign_verify size r m HI HK) as (s0 & E0 & _ & V0). rewrite E0 in ES. apply Ok_inj in ES as ->.
    apply Ok_inj in EV. rewrite (C20_rsa_verify_characterised size r) in EV, V0 by exact HK. destruct EV as [_ EV], V0 as [_ V0]. rewrite V0 in EV.
    rewrite <- !(proj1 C11_emsa) in EV. apply (proj2 (proj2 C11_emsa) m m' size). apply be_val_inj; [|exact EV].
    rewrite !(proj1 (proj2 C11_emsa)) by exact HI. reflexivity.
Qed.

(** A key set some reader gave, after any operations. *)
Definition reached (ks : keyset) : Prop := exists c rd ks0 ops, open_keyset c rd = Ok ks0 /\ ks = run ks0 ops.

Lemma reached_inv ks : reached ks -> inv ks.
Proof. intros (c & rd & ks0 & ops & H & ->). apply inv_run, (inv_open c rd), H. Qed.

(** [ks] has the version [n], with key [k], and no two of its keys share an identifier. *)
Definition holds (ks : keyset) (n : Z) (k : key) : Prop :=
  reached ks /\ ids_distinct ks /\ exists s, ring_of ks n = Some (s, k).

Definition signer_of (ks : keyset) (k : key) : Prop := reached ks /\ exists n, ring_of ks n = Some (PRIMARY, k).

Lemma signer_primary ks k : signer_of ks k -> primary_key ks = Ok k /\ exists id, key_hash_id k = Ok (Base64WSEncode id) /\ len id = 4 /\ key_header k = Ok (x00 :: id).
Proof.
  intros [R (n & HR)]. pose proof (reached_inv ks R) as I. split; [apply (primary_key_spec ks k I); exists n; exact HR|].
  destruct (ring_entry ks n PRIMARY k I HR) as (o & _ & HK & _).
  destruct (inv_hash1 ks I o k (assoc_In Nat.eqb_eq HK)) as (h & _ & HH & _).
  destruct (key_header_ok k h HH) as (id & -> & L & EH). exists id. auto.
Qed.

Lemma holds_find ks n k h : holds ks n k -> key_hash_id k = Ok h -> GetKey_hash ks h = Ok k.
Proof.
  intros (R & D & s & HR) HH. pose proof (reached_inv ks R) as I.
  destruct (ring_entry ks n s k I HR) as (o & _ & HK & _). apply (ids_lookup ks o k h I D (assoc_In Nat.eqb_eq HK) HH).
Qed.

Lemma header_find ks n k id : holds ks n k -> key_hash_id k = Ok (Base64WSEncode id) -> len id = 4 ->
  ParseHeader ks (x00 :: id) = Ok k.
Proof.
  intros H HH L. unfold ParseHeader. change (index (x00 :: id) 0) with (Ok x00). cbn [bind]. change (ord x00 =? VERSION) with true. cbn [negb].
  assert (E : slice_from (x00 :: id) 1 = id) by (apply (slice_from_app [x00] id); reflexivity). rewrite E. apply (holds_find ks n k _ H HH).
Qed.

Lemma cons_head_slice (id t : str) : len id = 4 -> slice_to (x00 :: id ++ t) HEADER_SIZE = x00 :: id /\ slice_from (x00 :: id ++ t) HEADER_SIZE = t.
Proof.
  intros L. change (x00 :: id ++ t) with ((x00 :: id) ++ t). split; [apply slice_to_app | apply slice_from_app]; rewrite len_cons, L; reflexivity.
Qed.

Lemma Verify_made ks n k id data sig : holds ks n k -> key_hash_id k = Ok (Base64WSEncode id) -> len id = 4 ->
  Verify ks data (x00 :: id ++ sig) None = key_Verify k (data ++ VERSION_BYTE) sig.
Proof.
  intros H HH L. unfold Verify. cbn [apply_codec bind]. destruct (cons_head_slice id sig L) as [-> ->].
  assert (E : len (x00 :: id ++ sig) <? HEADER_SIZE = false).
  { rewrite len_cons, len_app. change HEADER_SIZE with 5. pose proof (len_nonneg sig). lia. }
  rewrite E. unfold InternalVerify. rewrite (header_find ks n k id H HH L). reflexivity.
Qed.

(** ** C35 *)
(** Whatever the signer is and whatever happened to it, its detached signatures are accepted by
    every verifier that has the signing key, or its public half, under some version. *)
Theorem C35_detached_signatures : forall e ks k data ks' n' k',
  signer_of ks k -> signs_soundly e k (data ++ VERSION_BYTE) -> holds ks' n' k' -> checks k k' ->
  (forall sig, Sign e ks data None = Ok sig -> Verify ks' data sig None = Ok true) /\
  (forall sig, Sign e ks data b64_encoder = Ok sig -> Verify ks' data sig b64_decoder = Ok true).
Proof.
  intros e ks k data ks' n' k' HS HK HV HC.
  assert (A : forall sig, Sign e ks data None = Ok sig -> Verify ks' data sig None = Ok true).
  { intros sig H. destruct (signer_primary ks k HS) as (HP & id & HH & L & HD).
    unfold Sign, InternalSign in H. rewrite HP in H. cbn [bind] in H. rewrite HD in H. cbn [bind PackByteArray app] in H.
    apply bind_Ok in H as (s & ES & H). cbn [apply_codec] in H. apply Ok_inj in H as <-. cbn [app].
    rewrite (Verify_made ks' n' k' id data s HV) by (try rewrite (public_id k k' HC); assumption).
    rewrite (public_verify k k' _ _ HC). apply (signed_verifies e k _ s HK ES). }
  split; [exact A|]. intros sig H. unfold Sign in H, A.
  apply bind_Ok in H as (kk & E1 & H). apply bind_Ok in H as (h & E2 & H). apply bind_Ok in H as (s & E3 & H).
  cbn [b64_encoder apply_codec] in H. apply Ok_inj in H as <-.
  assert (A' := A (h ++ s)). rewrite E1 in A'. cbn [bind] in A'. rewrite E2 in A'. cbn [bind] in A'. rewrite E3 in A'. cbn [bind apply_codec] in A'.
  unfold Verify in *. cbn [b64_decoder apply_codec] in *. rewrite base64_roundtrip. apply A'. reflexivity.
Qed.
Print Assumptions C35_detached_signatures.

(** Signing succeeds: for every HMAC or valid RSA primary key, and for DSA keys with q below
    256^(2^60). *)
Theorem C35_signing_succeeds : forall e ks k data, signer_of ks k ->
  (exists h, k = KHmac h) \/ (exists r size, k = KRsaPriv r /\ In size rsa_sizes /\ rsa_key_ok size r) \/
  (exists d b, k = KDsaPriv d /\ dsa_key_ok d /\ 0 <= b <= 2 ^ 60 /\ 2 < dn_q (dn_pub (ds_key d)) < 256 ^ b) ->
  exists sig, Sign e ks data b64_encoder = Ok sig.
Proof.
  intros e ks k data HS HK. destruct (signer_primary ks k HS) as (HP & id & HH & L & HD).
  assert (G : exists s, key_Sign e k (data ++ VERSION_BYTE) = Ok s).
  { destruct HK as [(h & ->)|[(r & size & -> & HI & HK)|(d & b & -> & HK & HB & HQ)]]; cbn [key_Sign].
    - unfold HmacKey_Sign. cbn [key_hash_id] in HH. unfold hmac_hash_id in HH. apply bind_Ok in HH as (b & -> & _). eexists. reflexivity.
    - destruct (C20_rsa_sign_verify size r (data ++ VERSION_BYTE) HI HK) as (s & E & _). exists s. exact E.
    - apply (C21_dsa_sign_total d (e_int e) (data ++ VERSION_BYTE) b HK HB HQ). }
  destruct G as (s & ES). unfold Sign, InternalSign. rewrite HP. cbn [bind]. rewrite HD. cbn [bind PackByteArray app]. rewrite ES.
  eexists. reflexivity.
Qed.
Print Assumptions C35_signing_succeeds.

(** REFUTED for DSA without the side condition: a signature with s = 0 is made and then
    rejected (C21_zero_signature_refuted gives keys that produce one). *)
Theorem C35_dsa_zero_refuted : forall e ks k data sig r ks' n' k',
  signer_of ks (KDsaPriv k) -> dsa_key_ok k -> holds ks' n' k' -> checks (KDsaPriv k) k' ->
  DsaPrivateKey_Sign k (e_int e) (data ++ VERSION_BYTE) = MakeDsaSig r 0 ->
  Sign e ks data None = Ok sig -> Verify ks' data sig None = Ok false.
Proof.
  intros e ks k data sig r ks' n' k' HS HK HV HC HZ H. destruct (signer_primary _ _ HS) as (HP & id & HH & L & HD).
  unfold Sign, InternalSign in H. rewrite HP in H. cbn [bind] in H. rewrite HD in H. cbn [bind PackByteArray app key_Sign] in H.
  apply bind_Ok in H as (s & ES & H). cbn [apply_codec] in H. apply Ok_inj in H as <-. cbn [app].
  rewrite (Verify_made ks' n' k' id data s HV) by (try rewrite (public_id _ k' HC); assumption).
  rewrite (public_verify _ k' _ _ HC). cbn [key_Verify].
  destruct (C21_dsa_sign_verify_partial k (e_int e) _ s HK ES) as (r' & s' & HM & _ & _ & _ & HF). apply HF. right.
  rewrite ES in HZ. pose proof (proj1 C13_dsa_sig_roundtrip r' s' s HM) as A. pose proof (proj1 C13_dsa_sig_roundtrip r 0 s (eq_sym HZ)) as B.
  rewrite A in B. apply Ok_inj, pair_inj in B as [_ B]. exact B.
Qed.
Print Assumptions C35_dsa_zero_refuted.

Lemma hmac_set_reached : reached hmac_set.
Proof. exists GenericKeyczar, hmac_reader, hmac_set, []. split; [exact hmac_set_opens | reflexivity]. Qed.

Example C35_case : exists k, signer_of hmac_set k /\ holds hmac_set 2 k /\ checks k k /\ forall e m, signs_soundly e k m.
Proof.
  assert (E : exists h, ring_of hmac_set 2 = Some (PRIMARY, KHmac h)) by (eexists; reflexivity).
  destruct E as (h & E). exists (KHmac h). split; [split; [exact hmac_set_reached | exists 2; exact E]|].
  split; [split; [exact hmac_set_reached | split; [exact C29_case | exists PRIMARY; exact E]]|]. split; [left; reflexivity|]. intros e m. exact I.
Qed.

(** ** C36 *)
(** Without a header every key of the set is tried.  A positive answer always comes from a key
    of the set; and if no key raises an exception the answer is whether some key verifies.  As in
    C34, the keys of a set with a history are those it ever held. *)
Theorem C36_unversioned_verify : forall c rd ks0 ops data sig, open_keyset c rd = Ok ks0 ->
  let ks := run ks0 ops in
  let of_set k := held ks0 ops k in
  (UnversionedVerify ks data sig None = Ok true -> exists k, of_set k /\ key_Verify k data sig = Ok true) /\
  ((forall k, of_set k -> exists b, key_Verify k data sig = Ok b) ->
   exists b, UnversionedVerify ks data sig None = Ok b /\ (b = true <-> exists k, of_set k /\ key_Verify k data sig = Ok true)).
Proof.
  intros c rd ks0 ops data sig H ks of_set.
  assert (T : forall k, (exists o, In (o, k) (ks_vkeys ks)) <-> of_set k) by (intros k; apply (vkeys_held c rd ks0 ops k H)).
  clearbody of_set ks. unfold UnversionedVerify. cbn [apply_codec bind]. split.
  - assert (G : forall l, verify_any l data sig = Ok true -> exists o k, In (o, k) l /\ key_Verify k data sig = Ok true).
    { intros l. induction l as [|[o k] l IH]; cbn [verify_any]; [discriminate|]. intros E. apply bind_Ok in E as (b & EB & E).
      destruct b; [exists o, k; split; [left; reflexivity | exact EB]|]. destruct (IH E) as (o' & k' & HI & HV). exists o', k'. split; [right; exact HI | exact HV]. }
    intros E. destruct (G _ E) as (o & k & HI & HV). exists k. split; [apply T; exists o; exact HI | exact HV].
  - intros HQ. assert (HQ' : forall o k, In (o, k) (ks_vkeys ks) -> exists b, key_Verify k data sig = Ok b).
    { intros o k HI. apply HQ, T. exists o. exact HI. }
    assert (G : exists b, verify_any (ks_vkeys ks) data sig = Ok b /\ (b = true <-> exists o k, In (o, k) (ks_vkeys ks) /\ key_Verify k data sig = Ok true)).
    { clear T HQ. induction (ks_vkeys ks) as [|[o k] l IH]; cbn [verify_any].
      - exists false. split; [reflexivity|]. split; [discriminate | intros (o & k & [] & _)].
      - destruct (HQ' o k (or_introl eq_refl)) as (b & EB). rewrite EB. cbn [bind]. destruct b.
        + exists true. split; [reflexivity|]. split; [intros _; exists o, k; split; [left; reflexivity | exact EB] | reflexivity].
        + destruct IH as (b & Eb & Hb); [intros o' k' HI; apply (HQ' o' k'); right; exact HI|]. exists b. split; [exact Eb|]. rewrite Hb.
          split; intros (o' & k' & HI & HV); exists o', k'; split; try assumption; [right; exact HI|].
          destruct HI as [E|HI]; [|exact HI]. apply pair_inj in E as [_ <-]. congruence. }
    destruct G as (b & E & Hb). exists b. split; [exact E|]. rewrite Hb. split.
    + intros (o & k & HI & HV). exists k. split; [apply T; exists o; exact HI | exact HV].
    + intros (k & HO & HV). apply T in HO as (o & HI). exists o, k. split; assumption.
Qed.
Print Assumptions C36_unversioned_verify.

(** HMAC and RSA keys never raise, so for those sets the answer is exact for every input. *)
Theorem C36_exact_for_hmac_and_rsa : forall c rd ks0 ops data sig, open_keyset c rd = Ok ks0 ->
  In (ks_type ks0) [HMAC_SHA1; RSA_PRIV; RSA_PUB] ->
  exists b, UnversionedVerify (run ks0 ops) data sig None = Ok b /\
    (b = true <-> exists k, held ks0 ops k /\ key_Verify k data sig = Ok true).
Proof.
  intros c rd ks0 ops data sig H HT. pose proof (inv_run ks0 ops (inv_open c rd ks0 H)) as I.
  rewrite <- (proj1 (proj2 (proj2 (DiskFacts.name_run ops ks0 (inv_open c rd ks0 H))))) in HT. set (ks := run ks0 ops) in *.
  destruct (proj2 (C36_unversioned_verify c rd ks0 ops data sig H)) as (b & E & Hb).
  - intros k HD. apply (vkeys_held c rd ks0 ops k H) in HD as (o & HK). fold ks in HK.
    pose proof (inv_type ks I o k HK) as T. destruct (inv_hash1 ks I o k HK) as (h & _ & HH & _). rewrite <- T in HT.
    destruct k as [k|k|k|k|k|k]; cbn [key_type] in HT; try (cbn in HT; intuition discriminate); cbn [key_Verify].
    + unfold HmacKey_Verify, HmacKey_Sign. cbn [key_hash_id] in HH. unfold hmac_hash_id in HH. apply bind_Ok in HH as (b & -> & _). eexists. reflexivity.
    + eexists. reflexivity.
    + eexists. reflexivity.
  - exists b. split; [exact E | exact Hb].
Qed.
Print Assumptions C36_exact_for_hmac_and_rsa.

(** Bare signatures made by a signer are accepted by every set that has the key. *)
Theorem C36_roundtrip : forall e ks k data sig ks' n' s' k',
  signer_of ks k -> signs_soundly e k data -> reached ks' -> ring_of ks' n' = Some (s', k') -> checks k k' ->
  UnversionedSign e ks data None = Ok sig -> UnversionedVerify ks' data sig None = Ok true.
Proof.
  intros e ks k data sig ks' n' s' k' HS HK H HR HC HU. pose proof (reached_inv ks' H) as I.
  destruct (signer_primary ks k HS) as (HP & _). unfold UnversionedSign in HU. rewrite HP in HU. cbn [bind] in HU.
  apply bind_Ok in HU as (sg & ES & HU). cbn [apply_codec] in HU. apply Ok_inj in HU as ->.
  assert (HV : key_Verify k' data sig = Ok true) by (rewrite (public_verify k k' _ _ HC); apply (signed_verifies e k _ sig HK ES)).
  destruct (ring_entry ks' n' s' k' I HR) as (o & _ & HKo & _). apply (assoc_In Nat.eqb_eq) in HKo.
  assert (Q : forall o k2, In (o, k2) (ks_vkeys ks') -> exists b, key_Verify k2 data sig = Ok b).
  { intros o2 k2 HI. pose proof (inv_type ks' I o2 k2 HI) as T2. pose proof (inv_type ks' I o k' HKo) as T. rewrite <- T in T2.
    destruct (inv_hash1 ks' I o2 k2 HI) as (h & _ & HH & _).
    assert (D : forall a b, key_Verify k' data sig = DsaPublicKey_Verify a data sig -> exists x, DsaPublicKey_Verify b data sig = Ok x).
    { intros a b E. rewrite E in HV. unfold DsaPublicKey_Verify in *. destruct (ParseDsaSig sig) as [[r q]|ex]; [eexists; reflexivity|].
      destruct (is_keyczar_error ex); [eexists; reflexivity | discriminate]. }
    destruct k2 as [k2|k2|k2|k2|k2|k2]; cbn [key_Verify].
    - destruct k'; discriminate.
    - unfold HmacKey_Verify, HmacKey_Sign. cbn [key_hash_id] in HH. unfold hmac_hash_id in HH. apply bind_Ok in HH as (b & -> & _). eexists. reflexivity.
    - destruct k'; try discriminate. eapply D. reflexivity.
    - destruct k'; try discriminate. eapply D. reflexivity.
    - eexists. reflexivity.
    - eexists. reflexivity. }
  unfold UnversionedVerify. cbn [apply_codec bind]. induction (ks_vkeys ks') as [|[o2 k2] l IH]; [destruct HKo|]. cbn [verify_any].
  destruct (Q o2 k2 (or_introl eq_refl)) as (b & EB). rewrite EB. cbn [bind]. destruct b; [reflexivity|]. apply IH.
  - destruct HKo as [E|HI]; [|exact HI]. apply pair_inj in E as [_ ->]. congruence.
  - intros o3 k3 HI. apply (Q o3 k3). right. exact HI.
Qed.
Print Assumptions C36_roundtrip.

(** REFUTED for DSA sets: the empty signature, verified by no key, does not give False. *)
Theorem C36_dsa_malformed_refuted : forall ks data n s k, reached ks ->
  ks_type ks = DSA_PRIV \/ ks_type ks = DSA_PUB -> ring_of ks n = Some (s, k) ->
  UnversionedVerify ks data [] None = Raise PyAsn1Error.
Proof.
  intros ks data n s k H HT HR. pose proof (reached_inv ks H) as I.
  destruct (ring_entry ks n s k I HR) as (o & _ & HK & _). apply (assoc_In Nat.eqb_eq) in HK.
  unfold UnversionedVerify. cbn [apply_codec bind]. destruct (ks_vkeys ks) as [|[o2 k2] l] eqn:E; [destruct HK|].
  assert (T : key_type k2 = ks_type ks) by (apply (inv_type ks I o2 k2); rewrite E; left; reflexivity).
  cbn [verify_any]. rewrite <- T in HT. destruct k2; cbn [key_type] in HT; try (destruct HT; discriminate); reflexivity.
Qed.
Print Assumptions C36_dsa_malformed_refuted.

Example C36_case : open_keyset GenericKeyczar hmac_reader = Ok hmac_set /\ In (ks_type hmac_set) [HMAC_SHA1; RSA_PRIV; RSA_PUB] /\
  exists k, held hmac_set [OpDemote 1; OpRevoke 1] k.
Proof. split; [exact hmac_set_opens|]. split; [left; reflexivity|]. eexists. exists [], [OpDemote 1; OpRevoke 1], 1. eexists. split; reflexivity. Qed.

Lemma skipn_skipn {A} a : forall b (l : list A), skipn a (skipn b l) = skipn (a + b) l.
Proof.
  intros b. induction b as [|b IH]; intros l; [rewrite Nat.add_0_r; reflexivity|].
  rewrite Nat.add_succ_r. destruct l as [|x l]; [rewrite !skipn_nil; reflexivity|]. cbn [skipn]. apply IH.
Qed.

(** Some random numbers. *)
Definition zero_env : env := MkEnv PyCrypto (fun _ => x00) 1.

Lemma app_inv_length {A} (a : list A) : forall b c d, List.length a = List.length b -> a ++ c = b ++ d -> a = b /\ c = d.
Proof.
  induction a as [|x a IH]; intros [|y b] c d L H; try discriminate L; [split; [reflexivity | exact H]|].
  cbn [app] in H. assert (x = y) by congruence. destruct (IH b c d) as [-> ->]; [cbn in L; lia | congruence | split; congruence].
Qed.

(** ** Attached signatures: what AttachedSign makes and how AttachedVerify reads it *)

Lemma IntToBytes_unpack s n : struct_unpack_i s = Ok n -> s = IntToBytes n.
Proof.
  intros H. destruct s as [|a [|b [|c [|d [|]]]]]; try discriminate H. unfold struct_unpack_i in H. cbv zeta in H. apply Ok_inj in H.
  rewrite of_be32_val in H. apply be_val_inj; [reflexivity|]. rewrite IntToBytes_val.
  pose proof (be_val_bound [a; b; c; d]) as B. set (v := be_val [a; b; c; d]) in *. clearbody v. change (256 ^ len [a; b; c; d]) with 4294967296 in B.
  change (2 ^ 32) with 4294967296 in *. change (2 ^ 31) with 2147483648 in *. subst n.
  destruct (v <? 2147483648) eqn:E; [rewrite Z.mod_small; lia|].
  replace (v - 4294967296) with (v + (-1) * 4294967296) by lia. rewrite Z_mod_plus_full, Z.mod_small; lia.
Qed.

(** A blob is a header, the packed data and the signature of the data, the nonce and the version byte. *)
Lemma AttachedSign_shape e ks k data nonce blob : signer_of ks k -> AttachedSign e ks data nonce None = Ok blob ->
  exists id p sig, key_hash_id k = Ok (Base64WSEncode id) /\ len id = 4 /\ PackByteArray nonce = Ok p /\ len data < 2 ^ 31 /\
    key_Sign e k (data ++ p ++ VERSION_BYTE) = Ok sig /\ blob = x00 :: id ++ packed data ++ sig.
Proof.
  intros HS H. destruct (signer_primary ks k HS) as (HP & id & HH & L & HD).
  unfold AttachedSign, InternalSign in H. rewrite HP in H. cbn [bind] in H. rewrite HD in H. cbn [bind] in H.
  apply bind_Ok in H as (d & ED & H). apply bind_Ok in H as (s & ES & H). apply bind_Ok in ES as (p & EP & ES).
  cbn [apply_codec] in H. apply Ok_inj in H as <-. apply PackByteArray_inv in ED as [LD ->].
  exists id, p, s. repeat split; assumption.
Qed.

Lemma AttachedVerify_at ks n k id data sig nonce : holds ks n k -> key_hash_id k = Ok (Base64WSEncode id) -> len id = 4 -> len data < 2 ^ 31 ->
  AttachedVerify ks (x00 :: id ++ packed data ++ sig) nonce None =
  let* p := PackByteArray nonce in
  let* b := key_Verify k (data ++ p ++ VERSION_BYTE) sig in Ok (if b then Some data else None).
Proof.
  intros H HH L LD. unfold AttachedVerify. cbn [apply_codec bind].
  assert (L5 : HEADER_SIZE = len (x00 :: id)) by (rewrite len_cons, L; reflexivity).
  change (x00 :: id ++ packed data ++ sig) with ((x00 :: id) ++ packed data ++ sig). rewrite L5. unfold packed at 1. rewrite UnpackByteArray_at by exact LD. cbn [bind].
  rewrite (slice_to_app (x00 :: id)) by reflexivity. rewrite app_assoc, slice_from_app by (rewrite len_app, len_packed; lia).
  unfold InternalVerify. rewrite (header_find ks n k id H HH L). cbn [bind]. destruct (PackByteArray nonce); reflexivity.
Qed.

(** ** C37 *)
Theorem C37_attached_roundtrip : forall e ks k data nonce ks' n' k',
  signer_of ks k -> (forall p, PackByteArray nonce = Ok p -> signs_soundly e k (data ++ p ++ VERSION_BYTE)) -> holds ks' n' k' -> checks k k' ->
  (forall blob, AttachedSign e ks data nonce None = Ok blob -> AttachedVerify ks' blob nonce None = Ok (Some data)) /\
  (forall blob, AttachedSign e ks data nonce b64_encoder = Ok blob -> AttachedVerify ks' blob nonce b64_decoder = Ok (Some data)).
Proof.
  intros e ks k data nonce ks' n' k' HS HK HV HC.
  assert (A : forall blob, AttachedSign e ks data nonce None = Ok blob -> AttachedVerify ks' blob nonce None = Ok (Some data)).
  { intros blob H. destruct (AttachedSign_shape e ks k data nonce blob HS H) as (id & p & sig & HH & L & EP & LD & ES & ->).
    rewrite (AttachedVerify_at ks' n' k' id data sig nonce HV) by (try rewrite (public_id k k' HC); assumption).
    rewrite EP. cbn [bind]. rewrite (public_verify k k' _ _ HC), (signed_verifies e k _ sig (HK p EP) ES). reflexivity. }
  split; [exact A|]. intros blob H. unfold AttachedSign in H, A.
  apply bind_Ok in H as (kk & E1 & H). apply bind_Ok in H as (h & E2 & H). apply bind_Ok in H as (d & E3 & H). apply bind_Ok in H as (s & E4 & H).
  cbn [b64_encoder apply_codec] in H. apply Ok_inj in H as <-. specialize (A (h ++ d ++ s)).
  rewrite E1 in A. cbn [bind] in A. rewrite E2 in A. cbn [bind] in A. rewrite E3 in A. cbn [bind] in A. rewrite E4 in A. cbn [bind apply_codec] in A.
  unfold AttachedVerify in *. cbn [b64_decoder apply_codec] in *. rewrite base64_roundtrip. apply A. reflexivity.
Qed.
Print Assumptions C37_attached_roundtrip.

(** Accepting the blob for another nonce needs a collision of the two texts: the same HMAC under the
    key, for RSA keys the same SHA-1 hash, for DSA keys two powers with the same remainder. *)
Theorem C37_nonce_binding : forall e ks k data nonce blob ks' n' k' nonce' data',
  signer_of ks k -> binding k -> AttachedSign e ks data nonce None = Ok blob -> holds ks' n' k' -> checks k k' ->
  AttachedVerify ks' blob nonce' None = Ok (Some data') -> nonce' <> nonce ->
  data' = data /\ collision e k (signed_text data nonce) (signed_text data nonce').
Proof.
  intros e ks k data nonce blob ks' n' k' nonce' data' HS HB H HV HC HA HN.
  destruct (AttachedSign_shape e ks _ data nonce blob HS H) as (id & p & sig & HH & L & EP & LD & ES & ->).
  rewrite <- (public_id k k' HC) in HH. rewrite (AttachedVerify_at ks' n' _ id data sig nonce' HV HH L LD) in HA.
  apply bind_Ok in HA as (p' & EP' & HA). apply bind_Ok in HA as (b & EV & HA). apply Ok_inj in HA. destruct b; [|discriminate].
  apply Some_inj in HA as ->. split; [reflexivity|].
  assert (PN : forall n p, PackByteArray n = Ok p -> p = match n with None => [] | Some n => IntToBytes (len n) ++ n end) by (intros [n|] p0 E0; [apply PackByteArray_inv in E0 as [_ ->]; reflexivity | apply Ok_inj in E0 as <-; reflexivity]).
  destruct (same_signature e k k' _ _ sig HB HC ES EV) as [C|C]; [|rewrite (PN _ _ EP), (PN _ _ EP') in C; exact C]. exfalso. apply HN.
  apply app_inv_head, app_inv_tail in C. subst p'. destruct nonce as [a|], nonce' as [a'|]; try reflexivity.
  - f_equal. apply (proj1 (proj2 (proj2 C07_pack_domain_and_injective)) _ _ _ EP' EP).
  - apply PackByteArray_inv in EP as [_ ->]. discriminate EP'.
  - apply PackByteArray_inv in EP' as [_ ->]. discriminate EP.
Qed.
Print Assumptions C37_nonce_binding.

Example C37_case : exists k, signer_of hmac_set (KHmac k) /\ holds hmac_set 2 (KHmac k) /\
  match AttachedSign zero_env hmac_set (bs "hello") (Some (bs "abc")) None with Ok blob =>
    AttachedVerify hmac_set blob (Some (bs "abc")) None = Ok (Some (bs "hello")) /\
    AttachedVerify hmac_set blob (Some (bs "abd")) None = Ok None /\ len blob = 34 | _ => False end.
Proof.
  assert (E : exists h, ring_of hmac_set 2 = Some (PRIMARY, KHmac h)) by (eexists; reflexivity).
  destruct E as (h & E). exists h. split; [split; [exact hmac_set_reached | exists 2; exact E]|].
  split; [split; [exact hmac_set_reached | split; [exact C29_case | exists PRIMARY; exact E]]|]. vm_compute. repeat split.
Qed.

(** ** C38: refuted *)
(** The signed payload is data|len(nonce)|nonce|0, which does not say where the data ends.  From
    the blob signed for data [d] and nonce [n|len(m)|m] anybody can cut a blob that is accepted
    with other data and the nonce [m] ... *)
Theorem C38_payload_ambiguous_refuted : forall e ks k d n m blob ks' n' k',
  let nonce := n ++ IntToBytes (len m) ++ m in
  let d' := d ++ IntToBytes (len nonce) ++ n in
  signer_of ks k -> signs_soundly e k (d ++ (IntToBytes (len nonce) ++ nonce) ++ VERSION_BYTE) -> holds ks' n' k' -> checks k k' ->
  len d' < 2 ^ 31 -> AttachedSign e ks d (Some nonce) None = Ok blob ->
  d' <> d /\ m <> nonce /\
  exists head sig, blob = head ++ IntToBytes (len d) ++ d ++ sig /\
    AttachedVerify ks' (head ++ IntToBytes (len d') ++ d' ++ sig) (Some m) None = Ok (Some d').
Proof.
  intros e ks k d n m blob ks' n' k' nonce d' HS HK HV HC LD' H.
  split. { intros C. apply (f_equal len) in C. unfold d' in C. rewrite !len_app, len_IntToBytes in C. pose proof (len_nonneg n). lia. }
  split. { intros C. apply (f_equal len) in C. unfold nonce in C. rewrite !len_app, len_IntToBytes in C. pose proof (len_nonneg n). lia. }
  destruct (AttachedSign_shape e ks k d (Some nonce) blob HS H) as (id & p & sig & HH & L & EP & LD & ES & ->).
  apply PackByteArray_inv in EP as [LN ->]. exists (x00 :: id), sig. split; [unfold packed; rewrite <- app_assoc; reflexivity|].
  assert (LM : len m < 2 ^ 31). { unfold nonce in LN. rewrite !len_app, len_IntToBytes in LN. pose proof (len_nonneg n). lia. }
  replace ((x00 :: id) ++ IntToBytes (len d') ++ d' ++ sig) with (x00 :: id ++ packed d' ++ sig) by (unfold packed; rewrite <- app_assoc; reflexivity).
  rewrite (AttachedVerify_at ks' n' k' id d' sig (Some m) HV) by (try rewrite (public_id k k' HC); assumption).
  rewrite PackByteArray_ok by exact LM. cbn [bind].
  replace (d' ++ (IntToBytes (len m) ++ m) ++ VERSION_BYTE) with (d ++ (IntToBytes (len nonce) ++ nonce) ++ VERSION_BYTE).
  - rewrite (public_verify k k' _ _ HC), (signed_verifies e k _ sig HK ES). reflexivity.
  - unfold d', nonce. rewrite <- !app_assoc. reflexivity.
Qed.
Print Assumptions C38_payload_ambiguous_refuted.

(** ... and the signature in any attached blob is also a detached signature of data|len(n)|n. *)
Theorem C38_attached_is_detached_refuted : forall e ks k d n blob ks' n' k',
  signer_of ks k -> signs_soundly e k (d ++ (IntToBytes (len n) ++ n) ++ VERSION_BYTE) -> holds ks' n' k' -> checks k k' ->
  AttachedSign e ks d (Some n) None = Ok blob ->
  exists head sig, blob = head ++ IntToBytes (len d) ++ d ++ sig /\ Verify ks' (d ++ IntToBytes (len n) ++ n) (head ++ sig) None = Ok true.
Proof.
  intros e ks k d n blob ks' n' k' HS HK HV HC H.
  destruct (AttachedSign_shape e ks k d (Some n) blob HS H) as (id & p & sig & HH & L & EP & LD & ES & ->).
  apply PackByteArray_inv in EP as [LN ->]. exists (x00 :: id), sig. split; [unfold packed; rewrite <- app_assoc; reflexivity|].
  cbn [app]. rewrite (Verify_made ks' n' k' id _ sig HV) by (try rewrite (public_id k k' HC); assumption).
  rewrite (public_verify k k' _ _ HC), <- (signed_verifies e k _ sig HK ES), <- !app_assoc. reflexivity.
Qed.
Print Assumptions C38_attached_is_detached_refuted.

(** What holds: among nonces of one length, and among detached signatures, the payload is
    unambiguous, so that a signature for something else is a collision of the two texts signed. *)
Theorem C38_equal_length_nonces_partial : forall e ks k d n blob ks' n' k' d' m head sig,
  signer_of ks k -> binding k -> holds ks' n' k' -> checks k k' -> AttachedSign e ks d (Some n) None = Ok blob ->
  blob = head ++ IntToBytes (len d) ++ d ++ sig -> len head = 5 -> len d' < 2 ^ 31 -> len m = len n ->
  AttachedVerify ks' (head ++ IntToBytes (len d') ++ d' ++ sig) (Some m) None = Ok (Some d') ->
  (d' = d /\ m = n) \/ collision e k (signed_text d (Some n)) (signed_text d' (Some m)).
Proof.
  intros e ks k d n blob ks' n' k' d' m head sig HS HBI HV HC H HB LH LD' LM HA.
  destruct (AttachedSign_shape e ks _ d (Some n) blob HS H) as (id & p & sig' & HH & L & EP & LD & ES & EB).
  assert (head = x00 :: id /\ sig' = sig) as [-> ->].
  { rewrite HB in EB. change (x00 :: id ++ packed d ++ sig') with ((x00 :: id) ++ packed d ++ sig') in EB.
    apply app_inv_length in EB; [|unfold len in *; cbn [List.length]; lia]. destruct EB as [-> EB]. split; [reflexivity|].
    unfold packed in EB. rewrite <- app_assoc in EB. apply app_inv_head, app_inv_head in EB. congruence. }
  replace ((x00 :: id) ++ IntToBytes (len d') ++ d' ++ sig) with (x00 :: id ++ packed d' ++ sig) in HA by (unfold packed; rewrite <- app_assoc; reflexivity).
  rewrite <- (public_id k k' HC) in HH. rewrite (AttachedVerify_at ks' n' _ id d' sig (Some m) HV HH L LD') in HA.
  apply bind_Ok in HA as (p' & EP' & HA). apply bind_Ok in HA as (b & EV & HA). apply Ok_inj in HA. destruct b; [|discriminate].
  apply PackByteArray_inv in EP as [LN ->]. apply PackByteArray_inv in EP' as [LM' ->].
  destruct (same_signature e k k' _ _ sig HBI HC ES EV) as [E|C]; [|right; exact C]. left. symmetry in E.
  rewrite !app_assoc in E. apply app_inv_tail in E. rewrite <- !app_assoc in E.
  assert (LL : len d = len d') by (apply (f_equal len) in E; rewrite !len_app, !len_IntToBytes in E; lia).
  apply app_inv_length in E; [|unfold len in LL; lia]. destruct E as [-> E]. rewrite LM in E. apply app_inv_head in E. split; congruence.
Qed.
Print Assumptions C38_equal_length_nonces_partial.

(** For all nonces: a recut blob is accepted exactly for the data and nonces whose signed text is the
    text that was signed, and otherwise only on a collision. *)
Theorem C38_recut_partial : forall e ks k d n blob ks' n' k' d' m head sig,
  signer_of ks k -> binding k -> holds ks' n' k' -> checks k k' -> AttachedSign e ks d n None = Ok blob ->
  blob = head ++ IntToBytes (len d) ++ d ++ sig -> len head = 5 -> len d' < 2 ^ 31 ->
  (AttachedVerify ks' (head ++ IntToBytes (len d') ++ d' ++ sig) m None = Ok (Some d') ->
   signed_text d' m = signed_text d n \/ collision e k (signed_text d n) (signed_text d' m)) /\
  (signs_soundly e k (signed_text d n) -> match m with None => True | Some m => len m < 2 ^ 31 end -> signed_text d' m = signed_text d n ->
   AttachedVerify ks' (head ++ IntToBytes (len d') ++ d' ++ sig) m None = Ok (Some d')).
Proof.
  intros e ks k d n blob ks' n' k' d' m head sig HS HBI HV HC H HB LH LD'.
  destruct (AttachedSign_shape e ks _ d n blob HS H) as (id & p & sig' & HH & L & EP & LD & ES & EB).
  assert (head = x00 :: id /\ sig' = sig) as [-> ->].
  { rewrite HB in EB. change (x00 :: id ++ packed d ++ sig') with ((x00 :: id) ++ packed d ++ sig') in EB.
    apply app_inv_length in EB; [|unfold len in *; cbn [List.length]; lia]. destruct EB as [-> EB]. split; [reflexivity|].
    unfold packed in EB. rewrite <- app_assoc in EB. apply app_inv_head, app_inv_head in EB. congruence. }
  assert (PN : forall n p, PackByteArray n = Ok p -> p = match n with None => [] | Some n => IntToBytes (len n) ++ n end) by (intros [x|] p0 E0; [apply PackByteArray_inv in E0 as [_ ->]; reflexivity | apply Ok_inj in E0 as <-; reflexivity]).
  rewrite (PN _ _ EP) in ES. change (key_Sign e k (signed_text d n) = Ok sig) in ES.
  replace ((x00 :: id) ++ IntToBytes (len d') ++ d' ++ sig) with (x00 :: id ++ packed d' ++ sig) by (unfold packed; rewrite <- app_assoc; reflexivity).
  rewrite <- (public_id k k' HC) in HH. rewrite (AttachedVerify_at ks' n' _ id d' sig m HV HH L LD'). split.
  - intros HA. apply bind_Ok in HA as (p' & EP' & HA). apply bind_Ok in HA as (b & EV & HA). apply Ok_inj in HA. destruct b; [|discriminate].
    rewrite (PN _ _ EP') in EV. exact (same_signature e k k' _ _ sig HBI HC ES EV).
  - intros HK LM E. assert (EM : PackByteArray m = Ok match m with None => [] | Some n => IntToBytes (len n) ++ n end) by (destruct m as [m|]; [apply PackByteArray_ok, LM | reflexivity]).
    rewrite EM. cbn [bind]. change (bind (key_Verify k' (signed_text d' m) sig) (fun b => Ok (if b then Some d' else None)) = Ok (Some d')).
    rewrite E, (public_verify k k' _ _ HC), (signed_verifies e k _ sig HK ES). reflexivity.
Qed.
Print Assumptions C38_recut_partial.

Theorem C38_detached_partial : forall e ks k d sig ks' n' k' d',
  signer_of ks k -> binding k -> holds ks' n' k' -> checks k k' -> Sign e ks d None = Ok sig -> Verify ks' d' sig None = Ok true ->
  d' = d \/ collision e k (signed_text d None) (signed_text d' None).
Proof.
  intros e ks k d sig ks' n' k' d' HS HB HV HC H HA. destruct (signer_primary _ _ HS) as (HP & id & HH & L & HD).
  unfold Sign, InternalSign in H. rewrite HP in H. cbn [bind] in H. rewrite HD in H. cbn [bind PackByteArray app] in H.
  apply bind_Ok in H as (s & ES & H). cbn [apply_codec] in H. apply Ok_inj in H as <-. cbn [app] in HA.
  rewrite <- (public_id k k' HC) in HH. rewrite (Verify_made ks' n' _ id d' s HV HH L) in HA.
  destruct (same_signature e k k' _ _ s HB HC ES HA) as [E|C]; [left|right; exact C].
  apply app_inv_tail in E. exact E.
Qed.
Print Assumptions C38_detached_partial.

Example C38_case : match AttachedSign zero_env hmac_set (bs "pay 1") (Some (bs "xy" ++ [x00; x00; x00; x01] ++ bs "z")) None with Ok blob =>
    let sig := slice_from blob (5 + 4 + 5) in let head := slice_to blob 5 in
    let d' := bs "pay 1" ++ [x00; x00; x00; x07] ++ bs "xy" in
    AttachedVerify hmac_set (head ++ IntToBytes (len d') ++ d' ++ sig) (Some (bs "z")) None = Ok (Some d') /\
    Verify hmac_set (bs "pay 1" ++ [x00; x00; x00; x07] ++ bs "xy" ++ [x00; x00; x00; x01] ++ bs "z") (head ++ sig) None = Ok true | _ => False end.
Proof. vm_compute. split; reflexivity. Qed.

(** ** C39 *)

(** The documented form of a blob for some data. *)
Definition documented (blob data : str) : Prop :=
  exists head sig, len head = 5 /\ sig <> [] /\ blob = head ++ IntToBytes (len data) ++ data ++ sig.

(** What holds, part 1: on every blob of at least nine bytes, sets of HMAC or RSA keys give the
    data, None or a Keyczar error. *)
Theorem C39_outcomes_partial : forall ks blob nonce, reached ks -> In (ks_type ks) [HMAC_SHA1; RSA_PRIV; RSA_PUB] ->
  9 <= len blob -> (forall n, nonce = Some n -> len n < 2 ^ 31) ->
  (exists d, AttachedVerify ks blob nonce None = Ok d) \/
  (exists e, AttachedVerify ks blob nonce None = Raise e /\ is_keyczar_error e = true).
Proof.
  intros ks blob nonce R HT L HN. pose proof (reached_inv ks R) as I. unfold AttachedVerify. cbn [apply_codec bind].
  assert (U : exists n, struct_unpack_i (slice blob HEADER_SIZE (HEADER_SIZE + 4)) = Ok n).
  { change HEADER_SIZE with 5. rewrite slice_nonneg by lia. set (t := skipn (Z.to_nat 5) blob).
    assert (LT : (4 <= List.length t)%nat) by (unfold t; rewrite skipn_length; unfold len in L; lia).
    destruct t as [|a [|b [|c [|d t]]]]; cbn [List.length] in LT; try lia. cbn. eexists. reflexivity. }
  destruct U as (n & U). unfold UnpackByteArray. rewrite U. cbn [bind]. unfold InternalVerify, ParseHeader.
  assert (EP : exists p, PackByteArray nonce = Ok p).
  { destruct nonce as [x|]; [|eexists; reflexivity]. eexists. apply PackByteArray_ok, HN. reflexivity. }
  destruct EP as (p & EP). rewrite EP.
  assert (EI : exists c, index (slice_to blob HEADER_SIZE) 0 = Ok c).
  { change HEADER_SIZE with 5. rewrite slice_to_firstn by lia. destruct blob as [|c blob]; [cbn in L; lia|]. exists c. reflexivity. }
  destruct EI as (c & EI). rewrite EI. cbn [bind]. destruct (ord c =? VERSION); cbn [negb].
  2:{ right. eexists. split; reflexivity. }
  destruct (GetKey_hash_spec ks (Base64WSEncode (slice_from (slice_to blob HEADER_SIZE) 1)) I) as [G1 G2].
  destruct (GetKey_hash ks _) as [k|e] eqn:EG.
  - destruct (G1 k eq_refl) as (HH & o & HI). pose proof (inv_type ks I o k HI) as T. rewrite <- T in HT. left. cbn [bind].
    destruct k as [k|k|k|k|k|k]; cbn [key_type] in HT; try (cbn in HT; intuition discriminate); cbn [key_Verify].
    + cbn [key_hash_id] in HH. unfold hmac_hash_id in HH. apply bind_Ok in HH as (b & EB & _). rewrite (HmacKey_Verify_ok k b _ _ EB). eexists. reflexivity.
    + eexists. reflexivity.
    + eexists. reflexivity.
  - right. destruct (G2 e eq_refl) as (-> & _). eexists. split; reflexivity.
Qed.
Print Assumptions C39_outcomes_partial.

(** REFUTED: shorter blobs, whatever the keys, raise a struct.error instead. *)
Theorem C39_short_blob_refuted : forall ks blob nonce, len blob < 9 -> AttachedVerify ks blob nonce None = Raise StructError.
Proof.
  intros ks blob nonce L. unfold AttachedVerify, UnpackByteArray. cbn [apply_codec bind].
  assert (E : struct_unpack_i (slice blob HEADER_SIZE (HEADER_SIZE + 4)) = Raise StructError); [|rewrite E; reflexivity].
  change HEADER_SIZE with 5. rewrite slice_nonneg by lia. change (Z.to_nat (5 + 4 - 5)) with 4%nat. set (t := skipn (Z.to_nat 5) blob).
  assert (LT : (List.length t < 4)%nat) by (unfold t; rewrite skipn_length; unfold len in L; lia).
  destruct t as [|a [|b [|c [|d t]]]]; cbn [List.length] in LT; try lia; reflexivity.
Qed.
Print Assumptions C39_short_blob_refuted.

(** REFUTED for DSA sets: a blob with the header of a key and an empty signature. *)
Theorem C39_dsa_refuted : forall ks n k id data nonce, holds ks n k -> (exists p, k = KDsaPub p) \/ (exists p, k = KDsaPriv p) ->
  key_hash_id k = Ok (Base64WSEncode id) -> len id = 4 -> len data < 2 ^ 31 -> (forall m, nonce = Some m -> len m < 2 ^ 31) ->
  AttachedVerify ks (x00 :: id ++ IntToBytes (len data) ++ data) nonce None = Raise PyAsn1Error.
Proof.
  intros ks n k id data nonce HV HK HH L LD HN. pose proof (AttachedVerify_at ks n k id data [] nonce HV HH L LD) as E.
  rewrite app_nil_r in E. unfold packed in E. rewrite E.
  destruct nonce as [x|]; [rewrite PackByteArray_ok by (apply HN; reflexivity)|]; cbn [PackByteArray bind]; destruct HK as [(p & ->)|(p & ->)]; reflexivity.
Qed.
Print Assumptions C39_dsa_refuted.

(** What holds, part 2: if the length field is not negative, an accepted blob has the documented
    form and the data returned is the data in it. *)
Definition never_accepts_empty (k : key) : Prop :=
  match k with
  | KHmac _ | KDsaPub _ | KDsaPriv _ => True
  | KRsaPriv k => exists size, In size rsa_sizes /\ rsa_key_ok size k
  | KRsaPub k => exists r size, In size rsa_sizes /\ rsa_key_ok size r /\ k = rs_pub r
  | KAes _ => False
  end.

Lemma empty_refused k m : never_accepts_empty k -> key_Verify k m [] <> Ok true.
Proof.
  assert (R : forall r size, In size rsa_sizes -> rsa_key_ok size r -> RsaPublicKey_Verify (rs_pub r) m [] <> true).
  { intros r size HI HK C. apply (C20_rsa_verify_characterised size r m [] HK) in C as [_ C]. rewrite be_val_nil in C.
    destruct HK as [HP _ _ _]. pose proof (rsa_e _ _ _ _ _ _ _ HP) as He. rewrite Z.pow_0_l, Zmod_0_l in C by exact He.
    unfold emsa in C. cbn [app] in C. rewrite be_val_cons in C.
    match type of C with context[256 ^ len ?t] => pose proof (be_val_bound t); pose proof (Z.pow_pos_nonneg 256 (len t) ltac:(lia) (len_nonneg t)) end.
    change (ord x01) with 1 in C. lia. }
  destruct k as [k|k|k|k|k|k]; cbn [never_accepts_empty key_Verify]; intros H.
  - contradiction.
  - unfold HmacKey_Verify. destruct (HmacKey_Sign k m) as [mac|e] eqn:E; cbn [bind]; [|discriminate]. intros C. apply Ok_inj, VerifySignedData_spec in C.
    unfold HmacKey_Sign in E. apply bind_Ok in E as (b & _ & E). apply Ok_inj in E. rewrite <- C in E. apply (f_equal len) in E. rewrite len_hmac in E. discriminate.
  - discriminate.
  - discriminate.
  - destruct H as (size & HI & HK). intros C. apply Ok_inj in C. apply (R k size HI HK C).
  - destruct H as (r & size & HI & HK & ->). intros C. apply Ok_inj in C. apply (R r size HI HK C).
Qed.

Theorem C39_accepted_form_partial : forall c rd ks ops blob nonce data lenfield,
  open_keyset c rd = Ok ks -> (forall k, held ks ops k -> never_accepts_empty k) ->
  AttachedVerify (run ks ops) blob nonce None = Ok (Some data) ->
  struct_unpack_i (slice blob 5 9) = Ok lenfield -> 0 <= lenfield -> documented blob data.
Proof.
  intros c rd ks0 ops blob nonce data n HO HR HA HU Hn. pose proof (inv_run ks0 ops (inv_open c rd ks0 HO)) as I.
  assert (HE : forall o k, In (o, k) (ks_vkeys (run ks0 ops)) -> never_accepts_empty k).
  { intros o k HI. apply HR, (vkeys_held c rd ks0 ops k HO). exists o. exact HI. }
  set (ks := run ks0 ops) in *. clearbody ks. clear HO HR.
  unfold AttachedVerify, UnpackByteArray in HA. cbn [apply_codec bind] in HA. change (HEADER_SIZE + 4) with 9 in HA. change (slice blob HEADER_SIZE 9) with (slice blob 5 9) in HA.
  rewrite HU in HA. cbn [bind] in HA. apply bind_Ok in HA as (b & EV & HA). apply Ok_inj in HA. destruct b; [|discriminate]. apply Some_inj in HA.
  unfold InternalVerify in EV. apply bind_Ok in EV as (k & EK & EV). apply bind_Ok in EV as (p & _ & EV).
  assert (HK : never_accepts_empty k).
  { unfold ParseHeader in EK. apply bind_Ok in EK as (c0 & _ & EK). destruct (negb _); [discriminate|].
    destruct (proj1 (GetKey_hash_spec ks _ I) k EK) as (_ & o & HI). apply (HE o k HI). }
  assert (SN : slice_from blob (9 + n) <> []) by (intros C; rewrite C in EV; apply (empty_refused k _ HK EV)).
  assert (LB : 9 + n < len blob). { destruct (Z.lt_ge_cases (9 + n) (len blob)) as [G|G]; [exact G|]. exfalso. apply SN, slice_from_all, G. }
  exists (slice_to blob 5), (slice_from blob (9 + n)). split; [apply len_slice_to; lia|]. split; [exact SN|].
  pose proof (IntToBytes_unpack _ _ HU) as EI. rewrite slice_nonneg in EI, HA by lia. rewrite slice_to_firstn, slice_from_skipn by lia.
  assert (LD : len data = n).
  { subst data. rewrite len_firstn by (rewrite skipn_length; unfold len in LB; lia). lia. }
  rewrite LD, <- EI, <- HA. change (Z.to_nat (9 - 5)) with 4%nat. change (Z.to_nat 5) with 5%nat. change (Z.to_nat 9) with 9%nat.
  replace (Z.to_nat (9 + n - 9)) with (Z.to_nat n) by lia. replace (Z.to_nat (9 + n)) with (Z.to_nat n + 9)%nat by lia.
  rewrite <- skipn_skipn, firstn_skipn. change 9%nat with (4 + 5)%nat. rewrite <- (skipn_skipn 4 5), firstn_skipn, firstn_skipn. reflexivity.
Qed.
Print Assumptions C39_accepted_form_partial.

(** REFUTED: negative length fields count from the end of the blob.  Every accepted blob gives
    another accepted one, with a negative length, for the same data and nonce. *)
Theorem C39_negative_length_refuted : forall ks n k id data sig nonce, holds ks n k ->
  key_hash_id k = Ok (Base64WSEncode id) -> len id = 4 -> len data < 2 ^ 31 -> 0 < len sig < 2 ^ 30 ->
  AttachedVerify ks (x00 :: id ++ IntToBytes (len data) ++ data ++ sig) nonce None = Ok (Some data) ->
  let blob := x00 :: id ++ IntToBytes (- (len sig + 9)) ++ data ++ sig in
  AttachedVerify ks blob nonce None = Ok (Some data) /\ forall d, len d < 2 ^ 31 -> ~ documented blob d.
Proof.
  intros ks n k id data sig nonce HV HH L LD LS HA blob.
  replace (x00 :: id ++ IntToBytes (len data) ++ data ++ sig) with (x00 :: id ++ packed data ++ sig) in HA by (unfold packed; rewrite <- app_assoc; reflexivity).
  rewrite (AttachedVerify_at ks n k id data sig nonce HV HH L LD) in HA.
  assert (EB : blob = (x00 :: id) ++ IntToBytes (- (len sig + 9)) ++ data ++ sig) by reflexivity. clearbody blob.
  assert (L5 : len (x00 :: id) = 5) by (rewrite len_cons, L; reflexivity).
  assert (RNG : - 2 ^ 31 <= - (len sig + 9) < 2 ^ 31) by (change (2 ^ 31) with 2147483648; change (2 ^ 30) with 1073741824 in LS; lia).
  split.
  - unfold AttachedVerify, UnpackByteArray. cbn [apply_codec bind]. change HEADER_SIZE with 5. change (5 + 4) with 9.
    assert (E1 : slice blob 5 9 = IntToBytes (- (len sig + 9))) by (rewrite EB; apply slice_mid_app; rewrite L5; [reflexivity | rewrite len_IntToBytes; reflexivity]).
    rewrite E1, unpack_pack by exact RNG. cbn [bind]. replace (9 + - (len sig + 9)) with (- len sig) by lia.
    assert (E2 : slice blob 9 (- len sig) = data).
    { rewrite EB. replace ((x00 :: id) ++ IntToBytes (- (len sig + 9)) ++ data ++ sig) with (((x00 :: id) ++ IntToBytes (- (len sig + 9))) ++ data ++ sig) by (rewrite <- app_assoc; reflexivity).
      set (pre := (x00 :: id) ++ IntToBytes (- (len sig + 9))). assert (LP : len pre = 9) by (unfold pre; rewrite len_app, L5; reflexivity). clearbody pre.
      assert (N : slice (pre ++ data ++ sig) 9 (- len sig) = slice (pre ++ data ++ sig) 9 (9 + len data)).
      { unfold slice. do 3 f_equal. unfold clamp. rewrite !len_app. pose proof (len_nonneg data). destruct (Z.ltb_spec (- len sig) 0); [|lia]. destruct (Z.ltb_spec (9 + len data) 0); lia. }
      rewrite N. apply slice_mid_app; rewrite LP; reflexivity. }
    rewrite E2. assert (E3 : slice_from blob (- len sig) = sig) by (rewrite EB, 2!app_assoc; apply slice_from_neg_app; [reflexivity | apply LS]). rewrite E3.
    assert (E4 : slice_to blob 5 = x00 :: id) by (rewrite EB; apply slice_to_app; symmetry; exact L5). rewrite E4.
    unfold InternalVerify. rewrite (header_find ks n k id HV HH L). cbn [bind]. destruct (PackByteArray nonce); exact HA.
  - intros d Ld (head & s & LH & _ & E). rewrite EB in E. apply app_inv_length in E as [_ E]; [|unfold len in *; lia].
    apply app_inv_length in E as [E _]; [|reflexivity]. apply (f_equal struct_unpack_i) in E. rewrite !unpack_pack in E by (try exact RNG; pose proof (len_nonneg d); lia).
    apply Ok_inj in E. pose proof (len_nonneg d). lia.
Qed.
Print Assumptions C39_negative_length_refuted.

Example C39_case : reached hmac_set /\ In (ks_type hmac_set) [HMAC_SHA1; RSA_PRIV; RSA_PUB] /\
  (forall k, held hmac_set [OpDemote 1; OpRevoke 1] k -> never_accepts_empty k) /\
  match AttachedSign zero_env hmac_set (bs "hello") None None with Ok blob =>
    AttachedVerify hmac_set (slice_to blob 5 ++ [xff; xff; xff; xe3] ++ slice_from blob 9) None None = Ok (Some (bs "hello")) | _ => False end.
Proof.
  split; [exact hmac_set_reached|]. split; [left; reflexivity|].
  split. { intros k H. apply (vkeys_held _ _ _ _ _ hmac_set_opens) in H as (o & HK). set (ops := [_; _]) in HK.
    pose proof (inv_run _ ops (inv_open _ _ _ hmac_set_opens)) as IV. pose proof (inv_type _ IV o k HK) as T. change (ks_type _) with HMAC_SHA1 in T. destruct k; try discriminate T. exact I. }
  vm_compute. reflexivity.
Qed.
