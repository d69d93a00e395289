(** * Props_Rand: what the random bytes do (C73). *)
From Coq Require Import Strings.String.
From Coq Require Import List ZArith NArith Bool Lia ZifyBool ZifyNat ZifyN.
From Coq.Init Require Import Byte.
From Verif Require Import PyBase PyFacts Base64 Base64Facts Sha1 Util UtilFacts Json JsonFacts KeyInfo SymKeys SymFacts ModArith ModFacts Der DerFacts AsymSpec AsymKeys AsymFacts
  Keys KeysFacts KeyData Keyczar KeyRing KeyczarFacts ErrFacts Session Props_Util Props_Sym Props_Asym Props_Keys Props_Format Props_Keyset Props_Sign Props_Disk Props_Session Streams Props_Stream.
Import ListNotations.
Local Open Scope Z_scope.
Ltac Zify.zify_post_hook ::= idtac.

(** ** Specification *)

(** The first [n] random bytes are the same. *)
Definition same_bytes (n : nat) (r r' : tape) : Prop := forall i, (i < n)%nat -> r i = r' i.
(** Two draws for a key are the same as far as the type needs them. *)
Definition same_draw (t : ktype) (size : Z) (d d' : draw) : Prop :=
  match t with
  | AES => same_bytes (Z.to_nat (size / 8 + 32)) (d_tape d) (d_tape d')
  | HMAC_SHA1 => same_bytes 32 (d_tape d) (d_tape d')
  | RSA_PRIV => d_rsa d = d_rsa d'
  | DSA_PRIV => d_dsa d = d_dsa d'
  | _ => True
  end.

(** ** Proofs *)
Lemma same_seq (r r' : tape) a n : map r (seq a n) = map r' (seq a n) -> forall i, (a <= i < a + n)%nat -> r i = r' i.
Proof.
  revert a. induction n as [|n IH]; intros a H i Hi; [lia|]. cbn [seq map] in H. injection H as H1 H2. destruct (Nat.eq_dec i a) as [->|N]; [exact H1 | apply (IH (S a) H2); lia].
Qed.
Lemma same_map (r r' : tape) n : same_bytes n r r' <-> map r (seq 0 n) = map r' (seq 0 n).
Proof.
  split; [|intros H i Hi; apply (same_seq r r' 0 n H); lia]. intros H. apply map_ext_in. intros i Hi. apply in_seq in Hi. apply H. lia.
Qed.
Lemma same_RandBytes r r' n : 0 <= n -> (RandBytes r n = RandBytes r' n <-> same_bytes (Z.to_nat n) r r').
Proof. intros Hn. unfold RandBytes. rewrite same_map. tauto. Qed.

Lemma cancel_Xor a b m : len a = len m -> len b = len m -> Xor a m = Xor b m -> a = b.
Proof. intros La Lb H. rewrite <- (Xor_cancel a m La), H. apply Xor_cancel, Lb. Qed.
Lemma zeros_one n1 n2 m1 m2 : 0 <= n1 -> 0 <= n2 -> rep n1 x00 ++ x01 :: m1 = rep n2 x00 ++ x01 :: m2 -> m1 = m2.
Proof.
  unfold rep. intros H1 H2. remember (Z.to_nat n1) as a. remember (Z.to_nat n2) as b. clear. revert b. induction a as [|a IH]; intros [|b] H; cbn [repeat app] in H; try discriminate H; [injection H as H; exact H|].
  injection H as H. exact (IH b H).
Qed.
Lemma oaep_inj k m1 m2 s1 s2 em : len s1 = 20 -> len s2 = 20 -> 64 <= k <= 2 ^ 32 -> oaep_encode k m1 s1 = Ok em -> oaep_encode k m2 s2 = Ok em -> s1 = s2 /\ m1 = m2.
Proof.
  intros L1 L2 Hk E1 E2.
  assert (D : forall m s, len s = 20 -> oaep_encode k m s = Ok em -> len m <= k - 42).
  { intros m s L E. destruct (Z.le_gt_cases (len m) (k - 42)) as [H|H]; [exact H|]. destruct (C12_oaep_domain k m s L ltac:(lia)) as [_ HR]. rewrite HR in E by exact H. discriminate E. }
  destruct (oaep_encode_ok k m1 s1 L1 (D _ _ L1 E1) ltac:(lia)) as (ms & mdb & mask & smask & G1 & B1 & G2 & B2 & B3 & A1 & A2 & A3 & A4).
  destruct (oaep_encode_ok k m2 s2 L2 (D _ _ L2 E2) ltac:(lia)) as (ms' & mdb' & mask' & smask' & G1' & B1' & G2' & B2' & B3' & A1' & A2' & A3' & A4').
  rewrite E1 in B3. apply Ok_inj in B3. rewrite E2 in B3'. apply Ok_inj in B3'. rewrite B3 in B3'. injection B3' as H. apply app_inv_len in H as [H1 H2]; [|lia].
  rewrite <- H2 in G2'. rewrite G2 in G2'. apply Ok_inj in G2'. subst smask'. rewrite B2, B2' in H1. apply cancel_Xor in H1; [|lia..]. split; [exact H1|].
  subst s2. rewrite G1 in G1'. apply Ok_inj in G1'. subst mask'. rewrite B1, B1' in H2.
  pose proof (D _ _ L1 E1). pose proof (D _ _ L1 E2). apply cancel_Xor in H2; [|rewrite !len_app, len_Hash, len_rep, len_cons by lia; lia..].
  apply app_inv_head in H2. apply zeros_one in H2; [exact H2 | lia..].
Qed.

Lemma rsa_Encrypt_inj size k r1 r2 p1 p2 c : In size rsa_sizes -> rsa_key_ok size k -> RsaPublicKey_Encrypt (rs_pub k) r1 p1 = Ok c -> RsaPublicKey_Encrypt (rs_pub k) r2 p2 = Ok c ->
  RandBytes r1 20 = RandBytes r2 20 /\ p1 = p2.
Proof.
  intros HS HK H1 H2. pose proof HK as [HP HB Hs Hps]. pose proof (rsa_bits _ _ _ _ _ _ _ HP) as Hbits. destruct (num_bytes_size size _ HS Hbits) as [NB Hn]. destruct (rsa_sizes_256 size HS) as (_ & _ & HZ).
  assert (L : forall r, len (RandBytes r 20) = 20) by (intros r; apply len_RandBytes; lia).
  assert (S : forall r p, RsaPublicKey_Encrypt (rs_pub k) r p = Ok c -> exists body c', oaep_encode (size / 8) p (RandBytes r 20) = Ok (x00 :: body) /\ len body = size / 8 - 1 /\ rsa_private (rs_key k) c' = Ok (be_val (x00 :: body)) /\ exists h, len h = 5 /\ c = h ++ long_to_bytes c' /\ 0 <= c').
  { intros r p H. unfold RsaPublicKey_Encrypt in H. rewrite HB, NB in H. change HLEN with 20 in H. apply bind_Ok in H as (em & HE & H). apply bind_Ok in H as (b & Hb & H). apply bind_Ok in H as (h & Hh & H). apply Ok_inj in H as <-.
    destruct (C12_oaep_domain (size / 8) p (RandBytes r 20) (L r) ltac:(lia)) as [HD HR]. destruct (Z.le_gt_cases (len p) (size / 8 - 42)) as [LE|GT]; [|rewrite HR in HE by exact GT; discriminate HE].
    destruct (HD LE) as (body & HE' & HL). rewrite HE in HE'. apply Ok_inj in HE'. subst em. unfold rsa_encrypt_str in Hb. rewrite bytes_to_long_eq, BytesToLong_val in Hb. apply bind_Ok in Hb as (c' & Hc & Hb). apply Ok_inj in Hb as <-.
    assert (Hm : 0 <= be_val (x00 :: body) < rn_n (rn_pub (rs_key k))).
    { rewrite be_val_cons. change (ord x00) with 0. pose proof (be_val_bound body) as B. rewrite HL in B. lia. }
    destruct (rsa_decrypts size (rs_key k) _ HP Hm) as (c2 & EC & R2 & ED). rewrite Hc in EC. apply Ok_inj in EC. subst c2.
    exists body, c'. split; [exact HE|]. split; [exact HL|]. split; [exact ED|]. exists h. split; [|split; [reflexivity | lia]].
    destruct (make_header_ok (PrefixHash [TrimBytes (rp_modulus (rs_pub k)); TrimBytes (rp_exponent (rs_pub k))]) (len_PrefixHash _)) as (id & EH & Hid & _). unfold rsapub_hash_id in Hh. rewrite EH in Hh. apply Ok_inj in Hh as <-. rewrite len_cons. lia. }
  destruct (S r1 p1 H1) as (b1 & c1 & E1 & L1 & D1 & h1 & LH1 & X1 & P1). destruct (S r2 p2 H2) as (b2 & c2 & E2 & L2 & D2 & h2 & LH2 & X2 & P2).
  rewrite X1 in X2. apply app_inv_len in X2 as [_ X2]; [|lia].
  assert (V : forall x, 0 <= x -> be_val (long_to_bytes x) = x).
  { intros x Hx. unfold long_to_bytes. destruct (x =? 0) eqn:E0; [assert (x = 0) by lia; subst; reflexivity | apply BigIntToBytes_val; exact Hx]. }
  pose proof (f_equal be_val X2) as X3. rewrite !V in X3 by assumption. subst c2. rewrite D1 in D2. apply Ok_inj in D2. apply be_val_inj in D2; [|rewrite !len_cons; lia]. rewrite D2 in E1.
  exact (oaep_inj (size / 8) p1 p2 _ _ _ (L r1) (L r2) ltac:(lia) E1 E2).
Qed.

(** ** C73 *)

(** Two AES encryptions give the same ciphertext just when the data and the 16 bytes drawn are the
    same. *)
Theorem C73_aes : forall e1 e2 ks k kb hb p1 p2 c1 c2, aes_primary ks k kb hb ->
  (Encrypt e1 ks p1 None = Ok c1 /\ Encrypt e2 ks p2 None = Ok c2) \/ (Encrypt e1 ks p1 b64_encoder = Ok c1 /\ Encrypt e2 ks p2 b64_encoder = Ok c2) ->
  c1 = c2 <-> p1 = p2 /\ same_bytes 16 (e_tape e1) (e_tape e2).
Proof.
  intros e1 e2 ks k kb hb p1 p2 c1 c2 HA H.
  assert (M : forall c1 c2, Encrypt e1 ks p1 None = Ok c1 -> Encrypt e2 ks p2 None = Ok c2 -> c1 = c2 <-> p1 = p2 /\ same_bytes 16 (e_tape e1) (e_tape e2)).
  { clear H c1 c2. intros c1 c2 H1 H2. destruct (aes_primary_Encrypt e1 ks k kb hb p1 HA) as (h1 & EH1 & LH1 & EP & LB1 & EE1). destruct (aes_primary_Encrypt e2 ks k kb hb p2 HA) as (h2 & EH2 & LH2 & _ & LB2 & EE2).
    rewrite EE1 in H1. rewrite EE2 in H2. rewrite EH1 in EH2. apply Ok_inj in EH2. subst h2.
    change 16%nat with (Z.to_nat 16). rewrite <- same_RandBytes by lia. split.
    - intros ->. rewrite <- H2 in H1. apply Ok_inj in H1. rewrite <- !app_assoc in H1. pose proof H1 as H3. apply app_inv_len in H3 as [_ H3]; [|reflexivity]. apply app_inv_len in H3 as [H3 _]; [|rewrite !len_RandBytes by lia; reflexivity]. split; [|exact H3].
      destruct HA as (HG & HM & HS). destruct (C17_aes_roundtrip (e_lib e1) k kb hb (e_tape e1) p1 HM HS) as (x1 & X1 & Y1). destruct (C17_aes_roundtrip (e_lib e2) k kb hb (e_tape e2) p2 HM HS) as (x2 & X2 & Y2).
      assert (T : forall e p x, AesKey_Encrypt (e_lib e) k (e_tape e) p = Ok x -> Encrypt e ks p None = Ok x) by (intros e p x HX; unfold Encrypt; rewrite EP; cbn [bind key_Encrypt]; rewrite HX; reflexivity).
      apply T in X1. apply T in X2. rewrite EE1 in X1. rewrite EE2 in X2. rewrite <- !app_assoc in X1, X2. rewrite H1 in X1. rewrite X2 in X1. apply Ok_inj in X1. subst x2. rewrite Y1 in Y2. apply Ok_inj in Y2. exact Y2.
    - intros [-> HR]. rewrite HR in H1. rewrite H1 in H2. apply Ok_inj in H2. exact H2. }
  destruct H as [[H1 H2]|[H1 H2]]; [exact (M c1 c2 H1 H2)|]. destruct (Encrypt_b64 _ _ _ _ H1) as (r1 & R1 & ->). destruct (Encrypt_b64 _ _ _ _ H2) as (r2 & R2 & ->). rewrite <- (M r1 r2 R1 R2).
  split; [apply (proj2 (proj2 C02_base64_canonical)) | intros ->; reflexivity].
Qed.
Print Assumptions C73_aes.

(** Two RSA encryptions likewise, with the 20 bytes drawn. *)
Theorem C73_rsa : forall e1 e2 ks k size p1 p2 c1 c2, encrypts_with ks k -> In size rsa_sizes -> rsa_key_ok size k ->
  (Encrypt e1 ks p1 None = Ok c1 /\ Encrypt e2 ks p2 None = Ok c2) \/ (Encrypt e1 ks p1 b64_encoder = Ok c1 /\ Encrypt e2 ks p2 b64_encoder = Ok c2) ->
  c1 = c2 <-> p1 = p2 /\ same_bytes 20 (e_tape e1) (e_tape e2).
Proof.
  intros e1 e2 ks k size p1 p2 c1 c2 HE HS HK H.
  assert (M : forall c1 c2, Encrypt e1 ks p1 None = Ok c1 -> Encrypt e2 ks p2 None = Ok c2 -> c1 = c2 <-> p1 = p2 /\ same_bytes 20 (e_tape e1) (e_tape e2)).
  { clear H c1 c2. intros c1 c2 H1 H2. rewrite (rsa_Encrypt _ _ _ _ _ HE) in H1. rewrite (rsa_Encrypt _ _ _ _ _ HE) in H2. apply bind_Ok in H1 as (x1 & X1 & H1). apply bind_Ok in H2 as (x2 & X2 & H2). apply Ok_inj in H1 as <-. apply Ok_inj in H2 as <-.
    change 20%nat with (Z.to_nat 20). rewrite <- same_RandBytes by lia. split.
    - intros ->. destruct (rsa_Encrypt_inj size k _ _ _ _ _ HS HK X1 X2) as [A B]. split; assumption.
    - intros [-> HR]. unfold RsaPublicKey_Encrypt in X1, X2. change HLEN with 20 in *. rewrite HR, X2 in X1. apply Ok_inj in X1. symmetry. exact X1. }
  destruct H as [[H1 H2]|[H1 H2]]; [exact (M c1 c2 H1 H2)|]. destruct (Encrypt_b64 _ _ _ _ H1) as (r1 & R1 & ->). destruct (Encrypt_b64 _ _ _ _ H2) as (r2 & R2 & ->). rewrite <- (M r1 r2 R1 R2).
  split; [apply (proj2 (proj2 C02_base64_canonical)) | intros ->; reflexivity].
Qed.
Print Assumptions C73_rsa.

(** Streams likewise, whatever the chunks. *)
Theorem C73_streams : forall e1 e2 ks k kb hb b64 ds1 ds2, aes_primary ks k kb hb ->
  exists w1 w2 w1' w2', CreateEncryptingStreamWriter ks (e_tape e1) b64 = Ok w1 /\ CreateEncryptingStreamWriter ks (e_tape e2) b64 = Ok w2 /\
    wrun w1 (map CWrite ds1 ++ [CFlush]) = (w1', map (fun _ => Ok tt) ds1 ++ [Ok tt]) /\ wrun w2 (map CWrite ds2 ++ [CFlush]) = (w2', map (fun _ => Ok tt) ds2 ++ [Ok tt]) /\
    (ew_out w1' = ew_out w2' <-> concat ds1 = concat ds2 /\ same_bytes 16 (e_tape e1) (e_tape e2)).
Proof.
  intros e1 e2 ks k kb hb b64 ds1 ds2 HA. destruct (C51_writes_then_flush e1 ks k kb hb b64 ds1 HA) as (w1 & w1' & c1 & A1 & A2 & A3 & A4). destruct (C51_writes_then_flush e2 ks k kb hb b64 ds2 HA) as (w2 & w2' & c2 & B1 & B2 & B3 & B4).
  exists w1, w2, w1', w2'. repeat (split; [assumption|]). rewrite A4, B4. apply (C73_aes e1 e2 ks k kb hb _ _ _ _ HA). destruct b64; [right | left]; split; assumption.
Qed.
Print Assumptions C73_streams.

(** Generated keys: equal just when what was drawn for them is. *)
Theorem C73_keys : forall d d' t size k k', GenKey d t (Some size) = Ok k -> GenKey d' t (Some size) = Ok k' -> k = k' <-> same_draw t size d d'.
Proof.
  intros d d' t size k k' H H'. split.
  - intros <-. destruct (C25_material d size) as (M1 & M2 & M3 & M4). destruct (C25_material d' size) as (N1 & N2 & N3 & N4). destruct t; cbn [same_draw]; try exact Logic.I.
    + destruct (M1 k H) as (a & kb & hb & -> & X1 & X2 & X3 & X4 & X5). destruct (N1 _ H') as (a' & kb' & hb' & E & Y1 & Y2 & Y3 & Y4 & Y5). injection E as <-. rewrite X1 in Y1. rewrite X2 in Y2. apply Ok_inj in Y1 as <-. apply Ok_inj in Y2 as <-.
      apply same_map. congruence.
    + destruct (M2 k H) as (a & hb & -> & X1 & X2). destruct (N2 _ H') as (a' & hb' & E & Y1 & Y2). injection E as <-. rewrite X1 in Y1. apply Ok_inj in Y1 as <-. apply same_map. congruence.
    + destruct (M4 k H) as (a & -> & X1 & X2). destruct (N4 _ H') as (a' & E & Y1 & Y2). injection E as <-. congruence.
    + destruct (M3 k H) as (a & -> & X1 & X2). destruct (N3 _ H') as (a' & E & Y1 & Y2). injection E as <-. congruence.
  - intros S. assert (E : GenKey d t (Some size) = GenKey d' t (Some size)); [|congruence]. unfold GenKey in *. destruct (IsValidSize t size) eqn:V; cbn [negb] in *; [|reflexivity]. destruct t; cbn [same_draw] in S; try congruence.
    + assert (Z8 : size / 8 = 16 \/ size / 8 = 24 \/ size / 8 = 32).
      { apply valid_documented in V. cbn in V. destruct V as [<-|[<-|[<-|[]]]]; [left|right;left|right;right]; reflexivity. }
      unfold AesKey_Generate, HmacKey_Generate.
      assert (R1 : RandBytes (d_tape d) (size / 8) = RandBytes (d_tape d') (size / 8)) by (apply same_RandBytes; [lia|]; intros i Hi; apply S; lia).
      assert (R2 : RandBytes (advance (Z.to_nat (size / 8)) (d_tape d)) (default_size HMAC_SHA1 / 8) = RandBytes (advance (Z.to_nat (size / 8)) (d_tape d')) (default_size HMAC_SHA1 / 8)).
      { change (default_size HMAC_SHA1 / 8) with 32. apply same_RandBytes; [lia|]. intros i Hi. unfold advance. apply S. lia. }
      rewrite R1, R2. reflexivity.
    + unfold HmacKey_Generate. assert (size = 256) as -> by (apply valid_documented in V; cbn in V; destruct V as [<-|[]]; reflexivity).
      assert (R1 : RandBytes (d_tape d) (256 / 8) = RandBytes (d_tape d') (256 / 8)) by (change (256 / 8) with 32; apply same_RandBytes; [lia | exact S]). rewrite R1. reflexivity.
Qed.
Print Assumptions C73_keys.

(** Sessions: key and nonce come from different random bytes. *)
Theorem C73_sessions : forall r r' s s', Session_New r = Ok s -> Session_New r' = Ok s' ->
  (se_key s = se_key s' <-> same_bytes 48 r r') /\ (se_nonce s = se_nonce s' <-> same_bytes 16 (advance 48 r) (advance 48 r')).
Proof.
  intros r r' s s' H H'. destruct (New_ok r) as (s0 & kb & hb & n & E & L1 & L2 & L3 & Ek & Eh & En & EK & EN). rewrite H in E. apply Ok_inj in E. subst s0.
  destruct (New_ok r') as (s1 & kb' & hb' & n' & E' & L1' & L2' & L3' & Ek' & Eh' & En' & EK' & EN'). rewrite H' in E'. apply Ok_inj in E'. subst s1.
  rewrite EK, EK', EN, EN'. split.
  - assert (I1 : fresh_key kb hb = fresh_key kb' hb' <-> kb = kb' /\ hb = hb').
    { split; [|intros [-> ->]; reflexivity]. intros Q. destruct (made_key kb hb L1 L2) as (_ & [M1 M2] & _). destruct (made_key kb' hb' L1' L2') as (_ & [M1' M2'] & _). rewrite Q in M1, M2. rewrite M1 in M1'. rewrite M2 in M2'. apply Ok_inj in M1'. apply Ok_inj in M2'. split; assumption. }
    rewrite I1, Ek, Eh, Ek', Eh', !same_RandBytes by lia. split.
    + intros [A B] i Hi. destruct (Nat.lt_ge_cases i 16) as [LT|GE]; [apply A; lia|]. specialize (B (i - 16)%nat ltac:(lia)). unfold advance in B. replace (16 + (i - 16))%nat with i in B by lia. exact B.
    + intros A. split; intros i Hi; [apply A; lia | unfold advance; apply A; lia].
  - assert (I2 : Some n = Some n' <-> n = n') by (split; [intros Q; injection Q as Q; exact Q | intros ->; reflexivity]). rewrite I2, En, En', same_RandBytes by lia. reflexivity.
Qed.
Print Assumptions C73_sessions.

Example C73_case : (exists k kb hb, aes_primary aes_set k kb hb) /\ (exists ks k, encrypts_with ks k /\ rsa_key_ok 512 k) /\
  (let d b := MkDraw (fun i => if Nat.eqb i 40 then b else x00) demo_rsa_nums (MkDsaNums (MkDsaPubNums 3 2 7 3) 2) in
   exists k k', GenKey (d x01) AES (Some 128) = Ok k /\ GenKey (d x02) AES (Some 128) = Ok k' /\ k <> k').
Proof.
  split; [|split].
  - destruct C40_case as [(n & k & kb & hb & HR & HM & HS & HV) _]. exists k, kb, hb. split; [split; [exact (proj1 HV) | exists n; exact HR] | split; assumption].
  - destruct C40_case as [_ (ks & H)]; exists ks, demo_rsa; exact H.
  - cbv zeta. eexists _, _. split; [vm_compute; reflexivity|]. split; [vm_compute; reflexivity|]. discriminate.
Qed.
