(** * Props_Loose2: the public half in a private key file, and key material of unexpected types (C84). *)
From Coq Require Import Strings.String.
From Coq Require Import List ZArith NArith Bool Lia ZifyBool ZifyNat ZifyN.
From Coq.Init Require Import Byte.
From Verif Require Import PyBase PyFacts Base64 Base64Facts Sha1 Util UtilFacts Json JsonFacts JsonSpec JsonSpecFacts KeyInfo KeyData Aes SymKeys SymFacts AsymKeys Keys KeysFacts Keyczar KeyRing KeyczarFacts
  Props_Keyset Props_More3 Loose Props_Loose.
Import ListNotations.
Local Open Scope Z_scope.
Ltac Zify.zify_post_hook ::= idtac.

(** The type of the public half. *)
Definition public_type (t : ktype) : option ktype := match t with DSA_PRIV => Some DSA_PUB | RSA_PRIV => Some RSA_PUB | _ => None end.

Lemma in_force_ok ms n w : json_ok (JObj ms) -> in_force ms n w -> json_ok w.
Proof.
  intros H (a & b & -> & _). apply json_ok_obj in H. rewrite Forall_forall in H. apply (H (tx n, w)). apply in_or_app. right. left. reflexivity.
Qed.

(** A private key that is read from a file has, under "publicKey", the member that is read as its public
    half: an object whose material is strings, and which, as a file of its own, is read as the public half of the key.
    This is for files without fractions and without surrogates that only together make a character. *)
Theorem C84_private_keys : forall t pt s j k h, public_type t = Some pt -> json_text s j -> json_ok j -> lread_key t s = Ok (k, h) ->
  exists pj k', found j ["publicKey"%string] pj /\ public_key k = Ok k' /\ lread_key pt (dumps pj) = Ok (k', h) /\
    forall path name, In (path, name) (material pt) -> exists u, found j ("publicKey"%string :: path ++ [name]) (JStr u).
Proof.
  intros t pt s j k h EP HJ OK H.
  assert (EL : loads s = Ok j) by (apply loads_grammar, HJ). unfold lread_key in H. apply keyczar_Ok in H.
  assert (G : forall pj ms k' h', j = JObj ms -> in_force ms "publicKey" pj -> public_key k = Ok k' -> lread_key pt (dumps pj) = Ok (k', h') -> h' = h ->
    exists pj k', found j ["publicKey"%string] pj /\ public_key k = Ok k' /\ lread_key pt (dumps pj) = Ok (k', h) /\
    forall path name, In (path, name) (material pt) -> exists u, found j ("publicKey"%string :: path ++ [name]) (JStr u)).
  { intros pj ms k' h' -> HF HK HR ->. exists pj, k'. split; [exists ms, pj; split; [reflexivity|]; split; [exact HF | reflexivity]|]. split; [exact HK|]. split; [exact HR|]. intros path name HI.
    destruct (C84_keys pt (dumps pj) k' h HR) as (_ & _ & _ & j' & HJ' & HM). apply loads_grammar in HJ'. rewrite (loads_dumps pj (in_force_ok ms _ pj OK HF)) in HJ'. apply Ok_inj in HJ' as <-.
    destruct (HM path name HI) as (u & HU). exists u. exists ms, pj. split; [reflexivity|]. split; [exact HF | exact HU]. }
  destruct t; try discriminate EP; cbn [public_type] in EP; apply Some_inj in EP as <-; apply bind_Ok in H as (x & H & HW); unfold with_id in HW; apply bind_Ok in HW as (h' & HW & E); apply Ok_inj, pair_inj in E as [<- <-].
  - unfold ldsapriv_read in H. rewrite EL in H. cbn [bind] in H. apply bind_Ok in H as (pj & HP & H). apply bind_Ok in H as (pub & HR & H). apply bind_Ok in H as (b & _ & H). apply bind_Ok in H as (z & _ & H). apply Ok_inj in H as <-.
    apply get_iff in HP as (ms & -> & HP). apply (G pj ms (KDsaPub pub) h' eq_refl HP); [reflexivity| |reflexivity].
    unfold lread_key. rewrite HR. cbn [bind]. unfold with_id. cbn [key_hash_id] in *. cbn [ds_pub] in HW. apply Ok_inj in HW as <-. reflexivity.
  - unfold lrsapriv_read in H. rewrite EL in H. cbn [bind] in H. apply bind_Ok in H as (pj & HP & H). apply bind_Ok in H as (pub & HR & H). do 7 (apply bind_Ok in H as (? & _ & H)). apply Ok_inj in H as <-.
    apply get_iff in HP as (ms & -> & HP). apply (G pj ms (KRsaPub pub) h' eq_refl HP); [reflexivity| |reflexivity].
    unfold lread_key. rewrite HR. cbn [bind]. unfold with_id. cbn [key_hash_id] in *. cbn [rs_pub] in HW. apply Ok_inj in HW as <-. reflexivity.
Qed.
Print Assumptions C84_private_keys.

(** The member is a string that decodes. *)
Definition decodes (ms : list (text * json)) (n : string) : Prop := exists u b, in_force ms n (JStr u) /\ Base64WSDecode_u u = Ok b.
Definition no_string (w : json) : Prop := forall u, w <> JStr u.

Lemma decodes_b64 ms n : decodes ms n -> exists b, lget_b64 (JObj ms) n = Ok b.
Proof. intros (u & b & HF & HB). exists b. unfold lget_b64. apply get_obj in HF. rewrite HF. exact HB. Qed.
Lemma no_string_b64 ms n w : in_force ms n w -> no_string w -> lget_b64 (JObj ms) n = Raise AttributeError.
Proof. intros HF HN. unfold lget_b64. apply get_obj in HF. rewrite HF. cbn [bind]. unfold decoded. destruct w; try reflexivity. destruct (HN s eq_refl). Qed.

(** A piece of key material that is no string is refused with AttributeError, which is no KeyczarError:
    for HMAC keys, for AES keys with everything else in place, and for public keys if the pieces before it decode. *)
Theorem C84_unexpected_material : forall s ms, json_text s (JObj ms) ->
  (forall w z, in_force ms "hmacKeyString" w -> in_force ms "size" z -> no_string w -> lread_key HMAC_SHA1 s = Raise AttributeError) /\
  (forall hm w v z hz, in_force ms "hmacKey" (JObj hm) -> in_force ms "aesKeyString" w -> in_force hm "hmacKeyString" v -> in_force ms "size" z -> in_force hm "size" hz ->
     in_force ms "mode" (JStr (tx "CBC")) -> no_string w \/ (decodes ms "aesKeyString" /\ no_string v) -> lread_key AES s = Raise AttributeError) /\
  (forall t pre n post w, t = DSA_PUB \/ t = RSA_PUB -> material t = pre ++ ([], n) :: post -> (forall p n', In (p, n') pre -> decodes ms n') ->
     in_force ms n w -> no_string w -> lread_key t s = Raise AttributeError).
Proof.
  intros s ms HJ. apply loads_grammar in HJ.
  assert (ND : forall w, no_string w -> decoded w = Raise AttributeError) by (intros w HN; destruct w; try reflexivity; destruct (HN s0 eq_refl)).
  split; [|split].
  - intros w z H1 H2 HN. apply get_obj in H1, H2. unfold lread_key, lhmac_open. rewrite HJ. cbn [bind]. rewrite H1. cbn [bind]. rewrite H2. cbn [bind]. rewrite (ND w HN). reflexivity.
  - intros hm w v z hz H1 H2 H3 H4 H5 H6 HN. apply get_obj in H1, H3, H4, H5, H6. unfold lread_key, laes_open. rewrite HJ. cbn [bind]. rewrite H1. cbn [bind].
    assert (H2' := H2). apply get_obj in H2. rewrite H2. cbn [bind]. rewrite H3. cbn [bind]. rewrite H5. cbn [bind]. rewrite H4. cbn [bind]. rewrite H6. cbn [bind]. change (named GetMode (JStr (tx "CBC"))) with (@Ok mode CBC). cbn [bind].
    destruct HN as [HN|[(u & b & HF & HB) HN]]; [rewrite (ND w HN); reflexivity|]. apply get_obj in HF. rewrite H2 in HF. apply Ok_inj in HF as ->.
    unfold decoded at 1. cbn [key_text bind]. rewrite HB. cbn [bind]. rewrite (ND v HN). reflexivity.
  - intros t pre n post w HT EM HD HF HN. pose proof (no_string_b64 ms n w HF HN) as X.
    assert (D : forall n', In ([], n') pre -> exists b, lget_b64 (JObj ms) n' = Ok b) by (intros n' HI; apply decodes_b64, (HD [] n' HI)).
    destruct HT as [-> | ->]; unfold lread_key; [unfold ldsapub_read | unfold lrsapub_read]; rewrite HJ; cbn [bind]; cbn [material] in EM.
    + destruct pre as [|p1 pre]; [injection EM as <- _; rewrite X; reflexivity|]. injection EM as <- EM. destruct (D _ (or_introl eq_refl)) as (b1 & ->). cbn [bind].
      destruct pre as [|p2 pre]; [injection EM as <- _; rewrite X; reflexivity|]. injection EM as <- EM. destruct (D _ (or_intror (or_introl eq_refl))) as (b2 & ->). cbn [bind].
      destruct pre as [|p3 pre]; [injection EM as <- _; rewrite X; reflexivity|]. injection EM as <- EM. destruct (D _ (or_intror (or_intror (or_introl eq_refl)))) as (b3 & ->). cbn [bind].
      destruct pre as [|p4 pre]; [injection EM as <- _; rewrite X; reflexivity|]. injection EM as <- EM. destruct pre; discriminate EM.
    + destruct pre as [|p1 pre]; [injection EM as <- _; rewrite X; reflexivity|]. injection EM as <- EM. destruct (D _ (or_introl eq_refl)) as (b1 & ->). cbn [bind].
      destruct pre as [|p2 pre]; [injection EM as <- _; rewrite X; reflexivity|]. injection EM as <- EM. destruct pre; discriminate EM.
Qed.
Print Assumptions C84_unexpected_material.

(** A DSA key with small numbers, and a public key whose generator is a number instead of a string. *)
Example C84_private_case :
  (exists j k h, json_text (bs "{""x"": ""Aw"", ""size"": 1024, ""publicKey"": {""y"": ""CA"", ""p"": ""Fw"", ""g"": ""Ag"", ""q"": ""Cw"", ""size"": 1024}}") j /\ json_ok j /\
     lread_key DSA_PRIV (bs "{""x"": ""Aw"", ""size"": 1024, ""publicKey"": {""y"": ""CA"", ""p"": ""Fw"", ""g"": ""Ag"", ""q"": ""Cw"", ""size"": 1024}}") = Ok (k, h)) /\
  (exists ms, json_text (bs "{""y"": ""CA"", ""p"": ""Fw"", ""g"": 2, ""q"": ""Cw"", ""size"": 1024}") (JObj ms) /\ decodes ms "y" /\ decodes ms "p" /\ in_force ms "g" (JInt 2)).
Proof.
  split.
  - destruct (loads (bs "{""x"": ""Aw"", ""size"": 1024, ""publicKey"": {""y"": ""CA"", ""p"": ""Fw"", ""g"": ""Ag"", ""q"": ""Cw"", ""size"": 1024}}")) as [j|] eqn:E; [|vm_compute in E; discriminate E].
    exists j. eexists _, _. split; [apply loads_grammar, E|]. split; [|vm_compute; reflexivity]. vm_compute in E. apply Ok_inj in E as <-. cbn. unfold high. repeat split; try lia; try exact Logic.I.
  - destruct (loads (bs "{""y"": ""CA"", ""p"": ""Fw"", ""g"": 2, ""q"": ""Cw"", ""size"": 1024}")) as [j|] eqn:E; [|vm_compute in E; discriminate E].
    assert (E' := E). vm_compute in E'. apply Ok_inj in E'. destruct j as [| | | | | |ms]; try discriminate E'. exists ms. split; [apply loads_grammar, E|]. injection E' as <-.
    split; [|split]; [| |apply get_obj; vm_compute; reflexivity]; unfold decodes; eexists _, _; (split; [apply get_obj; vm_compute; reflexivity | vm_compute; reflexivity]).
Qed.
