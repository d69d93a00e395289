(** * KeysFacts: JSON round trip of keys, identifiers, generation. *)
From Coq Require Import Strings.String.
From Coq Require Import List ZArith NArith Bool Lia ZifyBool ZifyNat ZifyN Permutation.
From Coq.Init Require Import Byte.
From Verif Require Import PyBase PyFacts Base64 Base64Facts Sha1 Util UtilFacts ModArith
  Json JsonFacts KeyInfo SymKeys SymFacts AsymKeys Keys.
Import ListNotations.
Local Open Scope Z_scope.
Ltac Zify.zify_post_hook ::= idtac.

(** ** JSON objects *)

Lemma last_member_In m k v : last_member m k = Some v -> In (k, v) m.
Proof.
  induction m as [|[k' w] m IH]; cbn [last_member]; [discriminate|].
  destruct (last_member m k) as [u|].
  - intros E. right. apply IH. assumption.
  - destruct (text_eqb k' k) eqn:E; [|discriminate]. apply text_eqb_eq in E as ->. intros E. apply Some_inj in E as ->.
    left. reflexivity.
Qed.

Lemma last_member_None m k : last_member m k = None <-> ~ In k (map fst m).
Proof.
  induction m as [|[k' w] m IH]; cbn [last_member map fst In]; [tauto|].
  destruct (last_member m k) as [u|] eqn:EL.
  - split; [discriminate|]. intros H. exfalso. apply H. right. apply last_member_In in EL.
    apply (in_map fst) in EL. exact EL.
  - destruct (text_eqb k' k) eqn:E.
    + apply text_eqb_eq in E as ->. split; [discriminate|]. intros H. exfalso. apply H. left. reflexivity.
    + apply text_eqb_neq in E. split; [|reflexivity]. intros _ [H|H]; [contradiction | apply IH in H; [assumption | reflexivity]].
Qed.

Lemma last_member_NoDup m k v : NoDup (map fst m) -> In (k, v) m -> last_member m k = Some v.
Proof.
  induction m as [|[k' w] m IH]; intros ND HI; [destruct HI|].
  cbn [map fst] in ND. inversion ND as [|? ? N1 N2]; subst. cbn [last_member].
  destruct HI as [E|HI].
  - apply pair_inj in E as [-> ->]. apply last_member_None in N1. rewrite N1, text_eqb_refl. reflexivity.
  - rewrite (IH N2 HI). reflexivity.
Qed.

Lemma last_member_perm m m' k : NoDup (map fst m) -> Permutation m m' -> last_member m k = last_member m' k.
Proof.
  intros ND P. pose proof (Permutation_map fst P) as PF.
  destruct (last_member m k) as [v|] eqn:E.
  - apply last_member_In in E. symmetry. apply last_member_NoDup; [apply (Permutation_NoDup PF ND)|].
    apply (Permutation_in _ P E).
  - apply last_member_None in E. symmetry. apply last_member_None. intros H. apply E.
    apply (Permutation_in _ (Permutation_sym PF) H).
Qed.

(** Equal up to the order of the members of objects. *)
Inductive jeq : json -> json -> Prop :=
| jeq_same v : jeq v v
| jeq_arr l l' : Forall2 jeq l l' -> jeq (JArr l) (JArr l')
| jeq_obj m m1 m' : NoDup (map fst m) -> Forall2 (fun p q => fst p = fst q /\ jeq (snd p) (snd q)) m m1 ->
    Permutation m1 m' -> jeq (JObj m) (JObj m').

Lemma get_jeq v w k : jeq v w ->
  (exists a b, get v k = Ok a /\ get w k = Ok b /\ jeq a b) \/ (exists e, get v k = Raise e /\ get w k = Raise e).
Proof.
  intros H. inversion H as [u|l l' F|m m1 m' ND F P]; subst.
  - destruct (get w k) as [a|e]; [left; exists a, a; repeat split; constructor | right; eexists; split; reflexivity].
  - right. exists TypeError. split; reflexivity.
  - assert (EF : map fst m1 = map fst m).
    { clear - F. induction F as [|p q m m1 [E _] F IH]; cbn; [reflexivity | rewrite E, IH; reflexivity]. }
    assert (ND1 : NoDup (map fst m1)) by (rewrite EF; assumption).
    cbn [get]. rewrite <- (last_member_perm m1 m' (tx k) ND1 P).
    assert (G : match last_member m (tx k), last_member m1 (tx k) with
                | Some a, Some b => jeq a b | None, None => True | _, _ => False end).
    { clear - F. induction F as [|[k1 a] [k2 b] m m1 [E J] F IH]; cbn [last_member]; [exact I|].
      cbn [fst snd] in E, J. subst k2.
      destruct (last_member m (tx k)), (last_member m1 (tx k)); try contradiction; [assumption|].
      destruct (text_eqb k1 (tx k)); [assumption | exact I]. }
    destruct (last_member m (tx k)) as [a|], (last_member m1 (tx k)) as [b|]; try contradiction.
    + left. exists a, b. repeat split. assumption.
    + right. exists KeyError. split; reflexivity.
Qed.

Lemma jeq_str a b : jeq a b -> forall s, a = JStr s -> b = JStr s.
Proof. intros H s ->. inversion H; reflexivity. Qed.
Lemma jeq_int a b : jeq a b -> forall s, a = JInt s -> b = JInt s.
Proof. intros H s ->. inversion H; reflexivity. Qed.

Lemma get_str_jeq v w k : jeq v w -> get_str v k = get_str w k.
Proof.
  intros H. unfold get_str. destruct (get_jeq v w k H) as [(a & b & -> & -> & J)|(e & -> & ->)]; [|reflexivity].
  cbn [bind]. inversion J; reflexivity.
Qed.
Lemma get_int_jeq v w k : jeq v w -> get_int v k = get_int w k.
Proof.
  intros H. unfold get_int. destruct (get_jeq v w k H) as [(a & b & -> & -> & J)|(e & -> & ->)]; [|reflexivity].
  cbn [bind]. inversion J; reflexivity.
Qed.
Lemma get_b64_jeq v w k : jeq v w -> get_b64 v k = get_b64 w k.
Proof. intros H. unfold get_b64. rewrite (get_str_jeq v w k H). reflexivity. Qed.

Lemma json_ok_perm m m' : Permutation m m' -> json_ok (JObj m) -> json_ok (JObj m').
Proof. intros P H. apply json_ok_obj. apply json_ok_obj in H. apply (Permutation_Forall P H). Qed.

Lemma jeq_json_ok v : forall w, jeq v w -> json_ok v -> json_ok w.
Proof.
  induction v as [| | | | |l IH|m IH] using json_ind'; intros w J; inversion J as [u|? l' F|? m1 m' ND F P]; subst; auto.
  - intros H. apply json_ok_arr in H. apply json_ok_arr. clear J. induction F as [|a b l l' E F IHF]; [constructor|].
    inversion IH; inversion H; subst. constructor; [auto | apply IHF; assumption].
  - intros H. apply (json_ok_perm m1 m' P). apply json_ok_obj in H. apply json_ok_obj. clear J ND P.
    induction F as [|[k a] [k2 b] m m1 [E E2] F IHF]; [constructor|]. cbn [fst snd] in E, E2. subst k2.
    inversion IH; inversion H; subst. cbn [fst snd] in *. constructor; [cbn [fst snd]; intuition | apply IHF; assumption].
Qed.

(** A member of a valid object is valid. *)
Lemma get_ok v k w : json_ok v -> get v k = Ok w -> json_ok w.
Proof.
  destruct v; try discriminate. intros H G. cbn [get] in G.
  destruct (last_member m (tx k)) as [u|] eqn:E; [|discriminate]. apply Ok_inj in G as ->.
  apply last_member_In in E. apply json_ok_obj in H. rewrite Forall_forall in H. apply (H _ E).
Qed.

(** ** Round trips *)

Lemma set_size_valid t n : IsValidSize t n = true -> set_size t n = n.
Proof. unfold set_size. intros ->. reflexivity. Qed.
Lemma set_size_is_valid t n : IsValidSize t (set_size t n) = true.
Proof. unfold set_size. destruct (IsValidSize t n) eqn:E; [assumption | destruct t; reflexivity]. Qed.

Definition hmac_wf (k : hmackey) : Prop := text_ok (hk_string k) /\ IsValidSize HMAC_SHA1 (hk_size k) = true.
Definition aes_wf (k : aeskey) : Prop :=
  text_ok (ak_string k) /\ hmac_wf (ak_hmac k) /\ IsValidSize AES (ak_size k) = true.
Definition rsapub_wf (k : rsapub) : Prop :=
  rp_key k = MkRsaPubNums (BytesToLong (rp_modulus k)) (BytesToLong (rp_exponent k)) /\
  IsValidSize RSA_PUB (rp_size k) = true.
Definition rsapriv_wf (k : rsapriv) : Prop :=
  rsapub_wf (rs_pub k) /\
  rs_key k = MkRsaNums (rp_key (rs_pub k)) (BytesToLong (rs_d k)) (BytesToLong (rs_primeQ k))
                       (BytesToLong (rs_primeP k)) (BytesToLong (rs_crt k)) /\
  IsValidSize RSA_PRIV (rs_size k) = true.
Definition dsapub_wf (k : dsapub) : Prop :=
  dp_key k = MkDsaPubNums (BytesToLong (dp_y k)) (BytesToLong (dp_g k)) (BytesToLong (dp_p k)) (BytesToLong (dp_q k)) /\
  IsValidSize DSA_PUB (dp_size k) = true.
Definition dsapriv_wf (k : dsapriv) : Prop :=
  dsapub_wf (ds_pub k) /\ ds_key k = MkDsaNums (dp_key (ds_pub k)) (BytesToLong (ds_x k)) /\
  IsValidSize DSA_PRIV (ds_size k) = true.

Definition key_wf (k : key) : Prop :=
  match k with
  | KAes k => aes_wf k | KHmac k => hmac_wf k | KDsaPriv k => dsapriv_wf k | KDsaPub k => dsapub_wf k
  | KRsaPriv k => rsapriv_wf k | KRsaPub k => rsapub_wf k
  end.

Ltac jok := apply jobj_ok; repeat (constructor; [cbn [snd]; try exact I; try assumption; try apply text_of_str_ok; try apply tx_ok|]); constructor.

Lemma jb64_ok s : json_ok (jb64 s).
Proof. apply text_of_str_ok. Qed.

Lemma get_b64_jb64 v k s : get v k = Ok (jb64 s) -> get_b64 v k = Ok s.
Proof. intros H. unfold get_b64, get_str. rewrite H. cbn [bind jb64]. apply base64_roundtrip_u. Qed.

Definition hmac_json (k : hmackey) : json :=
  jobj [("size"%string, JInt (hk_size k)); ("hmacKeyString"%string, JStr (hk_string k))].
Lemma hmac_json_ok k : hmac_wf k -> json_ok (hmac_json k).
Proof. intros [H _]. jok. Qed.
Lemma hmac_rt k : hmac_wf k -> HmacKey_Read (hmac_str k) = Ok k.
Proof.
  intros W. pose proof W as [HT HV]. unfold HmacKey_Read, hmac_str. fold (hmac_json k). rewrite loads_dumps by (apply hmac_json_ok; assumption).
  cbn [bind]. change (get_str (hmac_json k) "hmacKeyString") with (Ok (hk_string k)).
  change (get_int (hmac_json k) "size") with (Ok (hk_size k)). cbn [bind]. unfold HmacKey_new. rewrite (set_size_valid _ _ HV).
  destruct k. reflexivity.
Qed.

Definition aes_json (k : aeskey) : json :=
  jobj [("mode"%string, JStr (tx (mode_name CBC))); ("size"%string, JInt (ak_size k));
        ("aesKeyString"%string, JStr (ak_string k)); ("hmacKey"%string, hmac_json (ak_hmac k))].
Lemma aes_json_ok k : aes_wf k -> json_ok (aes_json k).
Proof.
  intros (HT & HW & _). pose proof (hmac_json_ok _ HW) as HJ. jok.
Qed.
Lemma aes_str_eq k : aes_wf k -> aes_str k = Ok (dumps (aes_json k)).
Proof.
  intros (HT & HW & HV). unfold aes_str, hmac_str. fold (hmac_json (ak_hmac k)).
  rewrite loads_dumps by (apply hmac_json_ok; assumption). reflexivity.
Qed.
Lemma aes_rt k : aes_wf k -> AesKey_Read (dumps (aes_json k)) = Ok k.
Proof.
  intros W. pose proof W as (HT & (HT2 & HV2) & HV). unfold AesKey_Read.
  rewrite loads_dumps by (apply aes_json_ok; assumption). cbn [bind].
  change (get (aes_json k) "hmacKey") with (Ok (hmac_json (ak_hmac k))). cbn [bind].
  change (get_str (aes_json k) "aesKeyString") with (Ok (ak_string k)). cbn [bind].
  change (get_str (hmac_json (ak_hmac k)) "hmacKeyString") with (Ok (hk_string (ak_hmac k))). cbn [bind].
  change (get_int (hmac_json (ak_hmac k)) "size") with (Ok (hk_size (ak_hmac k))). cbn [bind].
  change (get_int (aes_json k) "size") with (Ok (ak_size k)). cbn [bind].
  change (get_str (aes_json k) "mode") with (Ok (tx (mode_name CBC))). cbn [bind].
  change (GetMode (tx (mode_name CBC))) with (Ok CBC). cbn [bind AesKey_new].
  unfold HmacKey_new. rewrite (set_size_valid _ _ HV), (set_size_valid _ _ HV2).
  destruct k as [s [hs hz] z]. reflexivity.
Qed.

Definition rsapub_json (k : rsapub) : json :=
  jobj [("modulus"%string, jb64 (rp_modulus k)); ("publicExponent"%string, jb64 (rp_exponent k));
        ("size"%string, JInt (rp_size k))].
Lemma rsapub_json_ok k : json_ok (rsapub_json k).
Proof. jok. Qed.
Lemma rsapub_rt k : rsapub_wf k -> RsaPublicKey_Read (dumps (rsapub_json k)) = Ok k.
Proof.
  intros [HK HV]. unfold RsaPublicKey_Read. rewrite loads_dumps by apply rsapub_json_ok. cbn [bind].
  rewrite (get_b64_jb64 (rsapub_json k) "modulus" (rp_modulus k) eq_refl). cbn [bind].
  rewrite (get_b64_jb64 (rsapub_json k) "publicExponent" (rp_exponent k) eq_refl). cbn [bind].
  change (get_int (rsapub_json k) "size") with (Ok (rp_size k)). cbn [bind].
  unfold RsaPublicKey_new. rewrite (set_size_valid _ _ HV). rewrite <- HK. destruct k. reflexivity.
Qed.

Definition rsapriv_json (k : rsapriv) : json :=
  jobj [("publicKey"%string, rsapub_json (rs_pub k));
        ("privateExponent"%string, jb64 (rs_d k));
        ("primeP"%string, jb64 (rs_primeP k));
        ("primeQ"%string, jb64 (rs_primeQ k));
        ("primeExponentP"%string, jb64 (rs_expP k));
        ("primeExponentQ"%string, jb64 (rs_expQ k));
        ("crtCoefficient"%string, jb64 (rs_crt k));
        ("size"%string, JInt (rs_size k))].
Lemma rsapriv_json_ok k : json_ok (rsapriv_json k).
Proof.
  pose proof (rsapub_json_ok (rs_pub k)). jok.
Qed.
Lemma rsapriv_str_eq k : rsapriv_str k = Ok (dumps (rsapriv_json k)).
Proof.
  unfold rsapriv_str, rsapub_str. fold (rsapub_json (rs_pub k)). rewrite loads_dumps by apply rsapub_json_ok. reflexivity.
Qed.
Lemma rsapriv_rt k : rsapriv_wf k -> RsaPrivateKey_Read (dumps (rsapriv_json k)) = Ok k.
Proof.
  intros (HP & HK & HV). unfold RsaPrivateKey_Read. rewrite loads_dumps by apply rsapriv_json_ok. cbn [bind].
  change (get (rsapriv_json k) "publicKey") with (Ok (rsapub_json (rs_pub k))). cbn [bind].
  rewrite (rsapub_rt _ HP). cbn [bind].
  rewrite (get_b64_jb64 (rsapriv_json k) "privateExponent" (rs_d k) eq_refl). cbn [bind].
  rewrite (get_b64_jb64 (rsapriv_json k) "primeP" (rs_primeP k) eq_refl). cbn [bind].
  rewrite (get_b64_jb64 (rsapriv_json k) "primeQ" (rs_primeQ k) eq_refl). cbn [bind].
  rewrite (get_b64_jb64 (rsapriv_json k) "primeExponentP" (rs_expP k) eq_refl). cbn [bind].
  rewrite (get_b64_jb64 (rsapriv_json k) "primeExponentQ" (rs_expQ k) eq_refl). cbn [bind].
  rewrite (get_b64_jb64 (rsapriv_json k) "crtCoefficient" (rs_crt k) eq_refl). cbn [bind].
  change (get_int (rsapriv_json k) "size") with (Ok (rs_size k)). cbn [bind].
  rewrite (set_size_valid _ _ HV). destruct HP as [HP _]. rewrite <- HP, <- HK. destruct k. reflexivity.
Qed.

Definition dsapub_json (k : dsapub) : json :=
  jobj [("p"%string, jb64 (dp_p k)); ("q"%string, jb64 (dp_q k)); ("g"%string, jb64 (dp_g k));
        ("y"%string, jb64 (dp_y k)); ("size"%string, JInt (dp_size k))].
Lemma dsapub_json_ok k : json_ok (dsapub_json k).
Proof. jok. Qed.
Lemma dsapub_rt k : dsapub_wf k -> DsaPublicKey_Read (dumps (dsapub_json k)) = Ok k.
Proof.
  intros [HK HV]. unfold DsaPublicKey_Read. rewrite loads_dumps by apply dsapub_json_ok. cbn [bind].
  rewrite (get_b64_jb64 (dsapub_json k) "y" (dp_y k) eq_refl). cbn [bind].
  rewrite (get_b64_jb64 (dsapub_json k) "p" (dp_p k) eq_refl). cbn [bind].
  rewrite (get_b64_jb64 (dsapub_json k) "g" (dp_g k) eq_refl). cbn [bind].
  rewrite (get_b64_jb64 (dsapub_json k) "q" (dp_q k) eq_refl). cbn [bind].
  change (get_int (dsapub_json k) "size") with (Ok (dp_size k)). cbn [bind].
  rewrite (set_size_valid _ _ HV). rewrite <- HK. destruct k. reflexivity.
Qed.

Definition dsapriv_json (k : dsapriv) : json :=
  jobj [("publicKey"%string, dsapub_json (ds_pub k)); ("x"%string, jb64 (ds_x k)); ("size"%string, JInt (ds_size k))].
Lemma dsapriv_json_ok k : json_ok (dsapriv_json k).
Proof.
  pose proof (dsapub_json_ok (ds_pub k)). jok.
Qed.
Lemma dsapriv_str_eq k : dsapriv_str k = Ok (dumps (dsapriv_json k)).
Proof.
  unfold dsapriv_str, dsapub_str. fold (dsapub_json (ds_pub k)). rewrite loads_dumps by apply dsapub_json_ok. reflexivity.
Qed.
Lemma dsapriv_rt k : dsapriv_wf k -> DsaPrivateKey_Read (dumps (dsapriv_json k)) = Ok k.
Proof.
  intros (HP & HK & HV). unfold DsaPrivateKey_Read. rewrite loads_dumps by apply dsapriv_json_ok. cbn [bind].
  change (get (dsapriv_json k) "publicKey") with (Ok (dsapub_json (ds_pub k))). cbn [bind].
  rewrite (dsapub_rt _ HP). cbn [bind].
  rewrite (get_b64_jb64 (dsapriv_json k) "x" (ds_x k) eq_refl). cbn [bind].
  change (get_int (dsapriv_json k) "size") with (Ok (ds_size k)). cbn [bind].
  rewrite (set_size_valid _ _ HV). destruct HP as [HP _]. rewrite <- HP, <- HK. destruct k. reflexivity.
Qed.

Definition key_json (k : key) : json :=
  match k with
  | KAes k => aes_json k | KHmac k => hmac_json k | KDsaPriv k => dsapriv_json k | KDsaPub k => dsapub_json k
  | KRsaPriv k => rsapriv_json k | KRsaPub k => rsapub_json k
  end.

Lemma key_json_ok k : key_wf k -> json_ok (key_json k).
Proof.
  destruct k; cbn [key_wf key_json]; intros W;
    [apply aes_json_ok; assumption | apply hmac_json_ok; assumption | apply dsapriv_json_ok | apply dsapub_json_ok
     | apply rsapriv_json_ok | apply rsapub_json_ok].
Qed.

Lemma key_str_eq k : key_wf k -> key_str k = Ok (dumps (key_json k)).
Proof.
  destruct k; cbn [key_wf key_str key_json]; intros W;
    [apply aes_str_eq; assumption | reflexivity | apply dsapriv_str_eq | reflexivity | apply rsapriv_str_eq | reflexivity].
Qed.

Lemma key_rt k : key_wf k -> ReadKey (key_type k) (dumps (key_json k)) = Ok k.
Proof.
  destruct k as [k|k|k|k|k|k]; unfold ReadKey; cbn [key_wf key_type key_json]; intros W.
  - rewrite (aes_rt k W). reflexivity.
  - pose proof (hmac_rt k W) as R. unfold hmac_str in R. fold (hmac_json k) in R. rewrite R. reflexivity.
  - rewrite (dsapriv_rt k W). reflexivity.
  - rewrite (dsapub_rt k W). reflexivity.
  - rewrite (rsapriv_rt k W). reflexivity.
  - rewrite (rsapub_rt k W). reflexivity.
Qed.

(** ** Keys that were read are well formed *)

Lemma str_of_text_ascii u s : str_of_text u = Ok s -> Forall (fun c => (c < 128)%N) u.
Proof.
  revert s. induction u as [|c u IH]; intros s H; [constructor|]. unfold str_of_text in H. cbn [mapM] in H.
  apply bind_Ok in H as (b & Hb & H). apply bind_Ok in H as (t & Ht & H).
  constructor; [|apply (IH t Ht)]. destruct (c <? 128)%N eqn:E; [lia | discriminate].
Qed.

Lemma decoded_text_ok u s : Base64WSDecode_u u = Ok s -> text_ok u.
Proof.
  unfold Base64WSDecode_u. intros H. apply bind_Ok in H as (t & Ht & _). apply str_of_text_ascii in Ht.
  assert (F : Forall (fun c => (c < 55296)%N) u).
  { rewrite Forall_forall in *. intros c Hc. destruct (is_ueol c) eqn:E.
    - unfold is_ueol in E. lia.
    - destruct (c =? 32)%N eqn:E2; [lia|]. specialize (Ht c). apply N.lt_trans with 128%N; [|reflexivity]. apply Ht.
      apply filter_In. split; [|rewrite E2; reflexivity]. apply filter_In. split; [assumption | rewrite E; reflexivity]. }
  clear Ht. induction F as [|c u Hc F IH]; [exact I|]. cbn [text_ok]. split; [lia|]. split; [|assumption].
  unfold high. intros [HH _]. lia.
Qed.

Lemma HmacKey_new_wf s z b : Base64WSDecode_u s = Ok b -> hmac_wf (HmacKey_new s z).
Proof. intros H. split; [apply (decoded_text_ok s b H) | apply set_size_is_valid]. Qed.

Lemma rsapub_read_wf s k : RsaPublicKey_Read s = Ok k -> rsapub_wf k.
Proof.
  unfold RsaPublicKey_Read. intros H. repeat (apply bind_Ok in H as (? & ? & H)). apply Ok_inj in H as <-.
  split; [reflexivity | apply set_size_is_valid].
Qed.
Lemma dsapub_read_wf s k : DsaPublicKey_Read s = Ok k -> dsapub_wf k.
Proof.
  unfold DsaPublicKey_Read. intros H. repeat (apply bind_Ok in H as (? & ? & H)). apply Ok_inj in H as <-.
  split; [reflexivity | apply set_size_is_valid].
Qed.

Lemma keyczar_Ok {A} (r : res A) a : key_error_to_keyczar r = Ok a -> r = Ok a.
Proof. destruct r as [b|[]]; cbn; congruence. Qed.

Lemma ReadKey_type t s k : ReadKey t s = Ok k -> key_type k = t.
Proof.
  unfold ReadKey. intros H. apply keyczar_Ok in H. destruct t; apply bind_Ok in H as (k' & _ & H); apply Ok_inj in H as <-; reflexivity.
Qed.

(** A key that was read, and whose identifier can be computed, is well formed. *)
Lemma ReadKey_wf t s k h : ReadKey t s = Ok k -> key_hash_id k = Ok h -> key_wf k.
Proof.
  unfold ReadKey. intros H HH. apply keyczar_Ok in H. destruct t; apply bind_Ok in H as (k' & H & E); apply Ok_inj in E as <-;
    cbn [key_wf key_hash_id] in *.
  - unfold AesKey_Read in H. repeat (apply bind_Ok in H as (? & ? & H)). unfold AesKey_new in H.
    destruct x6; try discriminate. apply Ok_inj in H as <-. unfold aes_hash_id in HH.
    apply bind_Ok in HH as (kb & Hk & HH). apply bind_Ok in HH as (hb & Hh & HH).
    split; [apply (decoded_text_ok _ _ Hk)|]. split; [apply (HmacKey_new_wf _ _ _ Hh) | apply set_size_is_valid].
  - unfold HmacKey_Read in H. repeat (apply bind_Ok in H as (? & ? & H)). apply Ok_inj in H as <-.
    unfold hmac_hash_id in HH. apply bind_Ok in HH as (hb & Hh & HH). apply (HmacKey_new_wf _ _ _ Hh).
  - unfold DsaPrivateKey_Read in H. apply bind_Ok in H as (v & Hv & H). apply bind_Ok in H as (pk & Hpk & H).
    apply bind_Ok in H as (pub & Hpub & H). apply bind_Ok in H as (x & Hx & H). apply bind_Ok in H as (z & Hz & H).
    apply Ok_inj in H as <-. pose proof (dsapub_read_wf _ _ Hpub) as W. split; [exact W|]. split; [|apply set_size_is_valid].
    cbn [ds_key ds_pub ds_x]. destruct W as [-> _]. reflexivity.
  - apply (dsapub_read_wf _ _ H).
  - unfold RsaPrivateKey_Read in H. apply bind_Ok in H as (v & Hv & H). apply bind_Ok in H as (pk & Hpk & H).
    apply bind_Ok in H as (pub & Hpub & H). repeat (apply bind_Ok in H as (? & ? & H)).
    apply Ok_inj in H as <-. pose proof (rsapub_read_wf _ _ Hpub) as W. split; [exact W|]. split; [|apply set_size_is_valid].
    cbn [rs_key rs_pub rs_d rs_primeP rs_primeQ rs_crt]. destruct W as [-> _]. reflexivity.
  - apply (rsapub_read_wf _ _ H).
Qed.

(** ** Reading does not depend on the order of members *)

Lemma bind_ext {A B} (r : res A) (f g : A -> res B) : (forall a, f a = g a) -> bind r f = bind r g.
Proof. intros H. destruct r; cbn; auto. Qed.

Lemma bind_jeq {B} v w k (f g : json -> res B) : jeq v w -> (forall a b, get v k = Ok a -> jeq a b -> f a = g b) ->
  bind (get v k) f = bind (get w k) g.
Proof.
  intros J H. destruct (get_jeq v w k J) as [(a & b & E1 & E2 & J2)|(e & E1 & E2)]; rewrite E1, E2; cbn [bind]; [|reflexivity].
  apply H; assumption.
Qed.

Lemma rsapub_read_jeq v w : json_ok v -> jeq v w -> RsaPublicKey_Read (dumps v) = RsaPublicKey_Read (dumps w).
Proof.
  intros O J. pose proof (jeq_json_ok v w J O) as O2. unfold RsaPublicKey_Read. rewrite !loads_dumps by assumption.
  cbn [bind]. rewrite !(get_b64_jeq v w _ J), (get_int_jeq v w _ J). reflexivity.
Qed.
Lemma dsapub_read_jeq v w : json_ok v -> jeq v w -> DsaPublicKey_Read (dumps v) = DsaPublicKey_Read (dumps w).
Proof.
  intros O J. pose proof (jeq_json_ok v w J O) as O2. unfold DsaPublicKey_Read. rewrite !loads_dumps by assumption.
  cbn [bind]. rewrite !(get_b64_jeq v w _ J), (get_int_jeq v w _ J). reflexivity.
Qed.

Lemma ReadKey_jeq t v w : json_ok v -> jeq v w -> ReadKey t (dumps v) = ReadKey t (dumps w).
Proof.
  intros O J. pose proof (jeq_json_ok v w J O) as O2. unfold ReadKey. destruct t; f_equal; f_equal.
  - unfold AesKey_Read. rewrite !loads_dumps by assumption. cbn [bind]. apply bind_jeq; [assumption|]. intros a b _ J2.
    rewrite !(get_str_jeq v w _ J), (get_str_jeq a b _ J2), (get_int_jeq a b _ J2), (get_int_jeq v w _ J). reflexivity.
  - unfold HmacKey_Read. rewrite !loads_dumps by assumption. cbn [bind].
    rewrite (get_str_jeq v w _ J), (get_int_jeq v w _ J). reflexivity.
  - unfold DsaPrivateKey_Read. rewrite !loads_dumps by assumption. cbn [bind]. apply bind_jeq; [assumption|]. intros a b Ha J2.
    rewrite (dsapub_read_jeq a b (get_ok _ _ _ O Ha) J2), (get_b64_jeq v w _ J), (get_int_jeq v w _ J). reflexivity.
  - apply dsapub_read_jeq; assumption.
  - unfold RsaPrivateKey_Read. rewrite !loads_dumps by assumption. cbn [bind]. apply bind_jeq; [assumption|]. intros a b Ha J2.
    rewrite (rsapub_read_jeq a b (get_ok _ _ _ O Ha) J2), !(get_b64_jeq v w _ J), (get_int_jeq v w _ J). reflexivity.
  - apply rsapub_read_jeq; assumption.
Qed.

(** ** Generated keys are well formed *)

Definition rsa_nonneg (k : rsa_nums) : Prop :=
  0 <= rn_n (rn_pub k) /\ 0 <= rn_e (rn_pub k) /\ 0 <= rn_d k /\ 0 <= rn_p k /\ 0 <= rn_q k /\ 0 <= rn_u k.
Definition dsa_nonneg (k : dsa_nums) : Prop :=
  0 <= dn_y (dn_pub k) /\ 0 <= dn_g (dn_pub k) /\ 0 <= dn_p (dn_pub k) /\ 0 <= dn_q (dn_pub k) /\ 0 <= dn_x k.

Lemma padded_int_val n : 0 <= n -> BytesToLong (padded_int n) = n.
Proof. intros H. unfold padded_int. rewrite BytesToLong_val, PadBytes_val. apply BigIntToBytes_val. assumption. Qed.

Lemma GenKey_wf d t size k : GenKey d t size = Ok k -> (t = RSA_PRIV -> rsa_nonneg (d_rsa d)) ->
  (t = DSA_PRIV -> dsa_nonneg (d_dsa d)) -> key_wf k.
Proof.
  unfold GenKey. set (z := match size with Some s => s | None => default_size t end). clearbody z.
  destruct (negb (IsValidSize t z)) eqn:EV; [discriminate|]. apply negb_false_iff in EV.
  intros H HR HD. destruct t; try discriminate.
  - unfold AesKey_Generate in H. cbn [AesKey_new bind] in H. apply Ok_inj in H as <-. cbn [key_wf].
    split; [apply text_of_str_ok|]. split; [|apply set_size_is_valid].
    split; [apply text_of_str_ok | apply set_size_is_valid].
  - apply Ok_inj in H as <-. split; [apply text_of_str_ok | apply set_size_is_valid].
  - apply Ok_inj in H as <-. destruct (HD eq_refl) as (D1 & D2 & D3 & D4 & D5).
    unfold DsaPrivateKey_Generate. destruct (d_dsa d) as [[y g p q] x]. cbn [dn_pub dn_x dn_y dn_g dn_p dn_q] in *.
    cbn [key_wf]. unfold dsapriv_wf, dsapub_wf. cbn [ds_pub ds_key ds_size ds_x dp_key dp_size dp_p dp_q dp_g dp_y].
    rewrite !padded_int_val by assumption. repeat split; apply set_size_is_valid.
  - apply Ok_inj in H as <-. destruct (HR eq_refl) as (R1 & R2 & R3 & R4 & R5 & R6).
    destruct (d_rsa d) as [[n e] dd p q u]. cbn [rn_pub rn_n rn_e rn_d rn_p rn_q rn_u] in *.
    cbn [key_wf]. unfold rsapriv_wf, rsapub_wf, RsaPrivateKey_Generate, RsaPublicKey_new.
    cbn [rs_pub rs_key rs_size rs_d rs_primeP rs_primeQ rs_crt rp_key rp_size rp_modulus rp_exponent rn_pub rn_n rn_e rn_d rn_p rn_q rn_u].
    rewrite !padded_int_val by assumption. repeat split; apply set_size_is_valid.
Qed.

(** ** Identifiers *)

Lemma key_header_ok k h : key_hash_id k = Ok h ->
  exists id, h = Base64WSEncode id /\ len id = 4 /\ key_header k = Ok (x00 :: id).
Proof.
  intros H. unfold key_header. rewrite H. cbn [bind].
  assert (E : exists f, len f = 20 /\ h = short_hash f).
  { destruct k; cbn [key_hash_id] in H.
    - unfold aes_hash_id in H. apply bind_Ok in H as (b & _ & H). apply bind_Ok in H as (c & _ & H). apply Ok_inj in H as <-.
      eexists. split; [apply len_Hash | reflexivity].
    - unfold hmac_hash_id in H. apply bind_Ok in H as (b & _ & H). apply Ok_inj in H as <-.
      eexists. split; [apply len_Hash | reflexivity].
    - apply Ok_inj in H as <-. eexists. split; [apply len_PrefixHash | reflexivity].
    - apply Ok_inj in H as <-. eexists. split; [apply len_PrefixHash | reflexivity].
    - apply Ok_inj in H as <-. eexists. split; [apply len_PrefixHash | reflexivity].
    - apply Ok_inj in H as <-. eexists. split; [apply len_PrefixHash | reflexivity]. }
  destruct E as (f & L & ->). destruct (make_header_ok f L) as (id & E & Li & ES). exists id. auto.
Qed.

Lemma lstrip_app_rep n s : lstrip (chr 0) (rep n x00 ++ s) = lstrip (chr 0) s.
Proof. change (chr 0) with x00. apply lstrip_rep. Qed.

Lemma TrimBytes_rep n s : TrimBytes (rep n x00 ++ s) = TrimBytes s.
Proof. unfold TrimBytes. rewrite lstrip_app_rep. reflexivity. Qed.
