(** * Props_Convert: what convert_keyset.py does to a key set (C87). *)
From Coq Require Import Strings.String.
From Coq Require Import List ZArith NArith Bool Lia ZifyBool ZifyNat ZifyN.
From Coq.Init Require Import Byte.
From Verif Require Import PyBase PyFacts Util UtilFacts Base64 Base64Facts UtilFacts2 Json JsonFacts KeyInfo KeyData SymKeys AsymKeys Keys KeysFacts
  Keyczar Disk Keyczart DiskFacts CrashFacts Props_Gen Props_Asym Props_More Convert ConvertFacts.
Import ListNotations.
Local Open Scope Z_scope.
Ltac Zify.zify_post_hook ::= idtac.

(** ** Specification *)

(** The number that bytes stand for in two's complement, most significant byte first: what Java's
    BigInteger(byte[]) reads. *)
Definition signed (b : str) : Z :=
  match b with
  | [] => 0
  | c :: _ => if ord c <? 128 then BytesToLong b else BytesToLong b - 256 ^ len b
  end.

(** The member that a path of names leads to. *)
Fixpoint reach (v : json) (path : list string) : res json :=
  match path with
  | [] => Ok v
  | k :: p => let* x := get v k in reach x p
  end.

(** The names of the numbers in the JSON texts of RSA and DSA keys. *)
Definition number_names : list string :=
  ["modulus"; "publicExponent"; "privateExponent"; "primeP"; "primeQ"; "primeExponentP"; "primeExponentQ"; "crtCoefficient"; "p"; "q"; "g"; "y"; "x"]%string.

(** The same key: the same key material, whatever zeros its numbers were written with. *)
Definition same_rsapub (k k' : rsapub) : Prop := rp_key k' = rp_key k /\ rp_size k' = rp_size k.
Definition same_dsapub (k k' : dsapub) : Prop := dp_key k' = dp_key k /\ dp_size k' = dp_size k.
Definition same_key (k k' : key) : Prop :=
  match k, k' with
  | KAes a, KAes a' => a' = a
  | KHmac a, KHmac a' => a' = a
  | KRsaPub a, KRsaPub a' => same_rsapub a a'
  | KRsaPriv a, KRsaPriv a' => rs_key a' = rs_key a /\ rs_size a' = rs_size a /\ same_rsapub (rs_pub a) (rs_pub a')
  | KDsaPub a, KDsaPub a' => same_dsapub a a'
  | KDsaPriv a, KDsaPriv a' => ds_key a' = ds_key a /\ ds_size a' = ds_size a /\ same_dsapub (ds_pub a) (ds_pub a')
  | _, _ => False
  end.

(** Two key sets that give the same answer to every call, with the same randomness. *)
Definition answer_alike (ks ks' : keyset) : Prop :=
  (forall c d, Decrypt ks' c d = Decrypt ks c d) /\
  (forall m s d, Verify ks' m s d = Verify ks m s d) /\
  (forall m n d, AttachedVerify ks' m n d = AttachedVerify ks m n d) /\
  (forall m s d, UnversionedVerify ks' m s d = UnversionedVerify ks m s d) /\
  (forall e m d, Encrypt e ks' m d = Encrypt e ks m d) /\
  (forall e m d, Sign e ks' m d = Sign e ks m d) /\
  (forall e m n d, AttachedSign e ks' m n d = AttachedSign e ks m n d) /\
  (forall e m d, UnversionedSign e ks' m d = UnversionedSign e ks m d).

(** The version numbers that a metadata text lists. *)
Definition lists_version (meta : str) (n : Z) : Prop :=
  exists j l v, loads meta = Ok j /\ get_arr j "versions" = Ok l /\ In v l /\ get_int v "versionNumber" = Ok n.

(** ** One key *)

Lemma lead_zero b : BytesToLong (x00 :: b) = BytesToLong b.
Proof. rewrite !BytesToLong_val, be_val_cons. change (ord x00) with 0. lia. Qed.
Lemma trim_zero b : TrimBytes (x00 :: b) = TrimBytes b.
Proof. unfold TrimBytes. rewrite chr0. cbn [lstrip]. reflexivity. Qed.

Lemma rewrite_text_inv s s' v : loads s = Ok v -> json_ok v -> rewrite_text s = Ok s' -> exists w, rewrite_rec v = Ok w /\ s' = dumps w /\ json_ok w /\ loads s' = Ok w.
Proof.
  intros L O R. unfold rewrite_text in R. rewrite L in R. cbn [bind] in R. apply bind_Ok in R as (w & R & E). apply Ok_inj in E as <-.
  exists w. pose proof (rewrite_ok v w R O) as O'. split; [exact R|]. split; [reflexivity|]. split; [exact O' | apply loads_dumps; exact O'].
Qed.

Ltac step_b64 R H := let b := fresh "b" in let Eb := fresh "Eb" in apply bind_Ok in H as (b & Eb & H);
  match type of Eb with get_b64 ?v ?k = _ => pose proof (rewrite_get_b64 v _ k b ltac:(vm_compute; reflexivity) R Eb) as ->; clear Eb; cbn [bind] end.
Ltac step_str R H := let b := fresh "t" in let Eb := fresh "Et" in apply bind_Ok in H as (b & Eb & H);
  match type of Eb with get_str ?v ?k = _ => pose proof (rewrite_get_str v _ k b ltac:(vm_compute; reflexivity) R Eb) as ->; clear Eb; cbn [bind] end.
Ltac step_int R H := let b := fresh "n" in let Eb := fresh "En" in apply bind_Ok in H as (b & Eb & H);
  match type of Eb with get_int ?v ?k = _ => pose proof (rewrite_get_int v _ k b ltac:(vm_compute; reflexivity) R Eb) as ->; clear Eb; cbn [bind] end.

Lemma rsapub_conv v w k : json_ok v -> rewrite_rec v = Ok w -> RsaPublicKey_Read (dumps v) = Ok k ->
  exists k', RsaPublicKey_Read (dumps w) = Ok k' /\ same_rsapub k k' /\ rsapub_hash_id k' = rsapub_hash_id k /\
    rp_modulus k' = x00 :: rp_modulus k /\ rp_exponent k' = x00 :: rp_exponent k.
Proof.
  intros O R H. unfold RsaPublicKey_Read in *. rewrite (loads_dumps v O) in H. rewrite (loads_dumps w (rewrite_ok v w R O)). cbn [bind] in H |- *.
  step_b64 R H. step_b64 R H. step_int R H. apply Ok_inj in H as <-. eexists. split; [reflexivity|]. unfold RsaPublicKey_new, same_rsapub, rsapub_hash_id.
  cbn [rp_key rp_size rp_modulus rp_exponent]. rewrite !lead_zero, !trim_zero. repeat split.
Qed.

Lemma dsapub_conv v w k : json_ok v -> rewrite_rec v = Ok w -> DsaPublicKey_Read (dumps v) = Ok k ->
  exists k', DsaPublicKey_Read (dumps w) = Ok k' /\ same_dsapub k k' /\ dsapub_hash_id k' = dsapub_hash_id k /\
    dp_y k' = x00 :: dp_y k /\ dp_p k' = x00 :: dp_p k /\ dp_q k' = x00 :: dp_q k /\ dp_g k' = x00 :: dp_g k.
Proof.
  intros O R H. unfold DsaPublicKey_Read in *. rewrite (loads_dumps v O) in H. rewrite (loads_dumps w (rewrite_ok v w R O)). cbn [bind] in H |- *.
  do 4 step_b64 R H. step_int R H. apply Ok_inj in H as <-. eexists. split; [reflexivity|]. unfold same_dsapub, dsapub_hash_id.
  cbn [dp_key dp_size dp_p dp_q dp_g dp_y]. rewrite !lead_zero, !trim_zero. repeat split.
Qed.

Lemma dsa_object v k : json_ok v -> DsaPublicKey_Read (dumps v) = Ok k -> exists m, v = JObj m.
Proof.
  intros O. unfold DsaPublicKey_Read. rewrite (loads_dumps v O). cbn [bind]. intros H. apply bind_Ok in H as (b & Eb & _).
  unfold get_b64, get_str in Eb. apply bind_Ok in Eb as (x & Ex & _). apply bind_Ok in Ex as (y & Ey & _). destruct v; try discriminate. eauto.
Qed.
Lemma rsa_object v k : json_ok v -> RsaPublicKey_Read (dumps v) = Ok k -> exists m, v = JObj m.
Proof.
  intros O. unfold RsaPublicKey_Read. rewrite (loads_dumps v O). cbn [bind]. intros H. apply bind_Ok in H as (b & Eb & _).
  unfold get_b64, get_str in Eb. apply bind_Ok in Eb as (x & Ex & _). apply bind_Ok in Ex as (y & Ey & _). destruct v; try discriminate. eauto.
Qed.

(** A key file that the library reads and the script converts is read as the same key, with the same
    key identifier. *)
Theorem C87_key : forall t s v s' k, loads s = Ok v -> json_ok v -> rewrite_text s = Ok s' -> ReadKey t s = Ok k ->
  exists k', ReadKey t s' = Ok k' /\ same_key k k' /\ key_hash_id k' = key_hash_id k.
Proof.
  intros t s v s' k L O T H. destruct (rewrite_text_inv s s' v L O T) as (w & R & -> & O' & L'). unfold ReadKey in *.
  assert (N : forall (r : res key), key_error_to_keyczar r = Ok k -> r = Ok k) by (intros [a|e]; [auto | destruct e; discriminate]).
  apply N in H. clear N. destruct t; apply bind_Ok in H as (a & Ha & H); apply Ok_inj in H as <-.
  - (* AES *) unfold AesKey_Read in *. rewrite L in Ha. rewrite L'. cbn [bind] in Ha |- *. apply bind_Ok in Ha as (hv & Ehv & Ha). step_str R Ha.
    destruct (rewrite_get_obj v w "hmacKey" _ ltac:(vm_compute; reflexivity) R Ehv) as (hv' & Ehv' & Rh). rewrite Ehv'. cbn [bind].
    apply bind_Ok in Ha as (hs & Ehs & Ha). apply bind_Ok in Ha as (hn & Ehn & Ha).
    destruct hv as [| | | | | |m]; try discriminate. cbv beta iota in Rh. pose proof (rewrite_get_str _ hv' "hmacKeyString" hs ltac:(vm_compute; reflexivity) Rh Ehs) as ->.
    pose proof (rewrite_get_int _ hv' "size" hn ltac:(vm_compute; reflexivity) Rh Ehn) as ->. cbn [bind]. step_int R Ha. step_str R Ha. rewrite Ha. cbn [bind].
    exists (KAes a). cbn [key_error_to_keyczar same_key]. auto.
  - (* HMAC *) unfold HmacKey_Read in *. rewrite L in Ha. rewrite L'. cbn [bind] in Ha |- *. step_str R Ha. step_int R Ha. apply Ok_inj in Ha as <-.
    eexists. split; [reflexivity|]. cbn [same_key]. auto.
  - (* DSA_PRIV *) unfold DsaPrivateKey_Read in *. rewrite L in Ha. rewrite L'. cbn [bind] in Ha |- *.
    apply bind_Ok in Ha as (pk & Epk & Ha). apply bind_Ok in Ha as (pub & Epub & Ha). pose proof (get_ok v _ pk O Epk) as Op.
    destruct (dsa_object pk pub Op Epub) as (m & ->). destruct (rewrite_get_obj v w "publicKey" _ ltac:(vm_compute; reflexivity) R Epk) as (pk' & Epk' & Rp). cbv beta iota in Rp.
    destruct (dsapub_conv _ pk' pub Op Rp Epub) as (pub' & Epub' & S & Hh & Fy & Fp & Fq & Fg). rewrite Epk'. cbn [bind]. rewrite Epub'. cbn [bind].
    step_b64 R Ha. step_int R Ha. apply Ok_inj in Ha as <-. eexists. split; [reflexivity|]. cbn [same_key key_hash_id ds_key ds_size ds_pub].
    rewrite Fy, Fp, Fq, Fg, !lead_zero. split; [split; [reflexivity | split; [reflexivity | exact S]] | f_equal; exact Hh].
  - (* DSA_PUB *) unfold DsaPublicKey_Read in Ha. rewrite L in Ha.
    assert (Ha' : DsaPublicKey_Read (dumps v) = Ok a) by (unfold DsaPublicKey_Read; rewrite (loads_dumps v O); exact Ha).
    destruct (dsapub_conv v w a O R Ha') as (k' & E & S & Hh & _). rewrite E. eexists. split; [reflexivity|]. cbn [same_key key_hash_id]. split; [exact S | f_equal; exact Hh].
  - (* RSA_PRIV *) unfold RsaPrivateKey_Read in *. rewrite L in Ha. rewrite L'. cbn [bind] in Ha |- *.
    apply bind_Ok in Ha as (pk & Epk & Ha). apply bind_Ok in Ha as (pub & Epub & Ha). pose proof (get_ok v _ pk O Epk) as Op.
    destruct (rsa_object pk pub Op Epub) as (m & ->). destruct (rewrite_get_obj v w "publicKey" _ ltac:(vm_compute; reflexivity) R Epk) as (pk' & Epk' & Rp). cbv beta iota in Rp.
    destruct (rsapub_conv _ pk' pub Op Rp Epub) as (pub' & Epub' & S & Hh & Fm & Fe). rewrite Epk'. cbn [bind]. rewrite Epub'. cbn [bind].
    do 6 step_b64 R Ha. step_int R Ha. apply Ok_inj in Ha as <-. eexists. split; [reflexivity|]. cbn [same_key key_hash_id rs_key rs_size rs_pub].
    rewrite Fm, Fe, !lead_zero. split; [split; [reflexivity | split; [reflexivity | exact S]] | f_equal; exact Hh].
  - (* RSA_PUB *) unfold RsaPublicKey_Read in Ha. rewrite L in Ha.
    assert (Ha' : RsaPublicKey_Read (dumps v) = Ok a) by (unfold RsaPublicKey_Read; rewrite (loads_dumps v O); exact Ha).
    destruct (rsapub_conv v w a O R Ha') as (k' & E & S & Hh & _). rewrite E. eexists. split; [reflexivity|]. cbn [same_key key_hash_id]. split; [exact S | f_equal; exact Hh].
Qed.
Print Assumptions C87_key.

(** ** The numbers *)

Lemma names_are_fields name : In name number_names <-> in_fields (tx name) = true.
Proof.
  split.
  - intros H. repeat (destruct H as [<-|H]; [vm_compute; reflexivity|]). destruct H.
  - unfold in_fields, FIELDS. rewrite existsb_exists. intros (t & HI & E). apply text_eqb_eq in E. subst t. apply in_map_iff in HI as (n & E & HI).
    apply tx_inj in E as <-. cbn [In] in HI. unfold number_names. cbn [In]. intuition.
Qed.

Lemma reach_conv path : forall v w x, rewrite_rec v = Ok w -> reach v path = Ok x -> (exists m, x = JObj m) -> exists y, reach w path = Ok y /\ rewrite_rec x = Ok y.
Proof.
  induction path as [|k p IH]; intros v w x R H HO; cbn [reach] in *.
  - apply Ok_inj in H as ->. exists w. auto.
  - apply bind_Ok in H as (z & Gz & H). destruct (rewrite_get v w k z R Gz) as (y & C & ->). cbn [bind].
    assert (Z : exists m, z = JObj m).
    { destruct p; cbn [reach] in H; [apply Ok_inj in H as ->; exact HO|]. destruct z; try discriminate. eauto. }
    destruct Z as (m & ->). unfold convert_member in C. apply bind_Ok in C as (v1 & R1 & C). destruct (rewrite_is_obj _ _ R1) as (m1 & m2 & _ & -> & _).
    destruct (in_fields (tx k)); [discriminate|]. apply Ok_inj in C as <-. exact (IH _ _ x R1 H HO).
Qed.

(** Every number of the key, in the key or in a key inside it, is written so that a reader who takes
    the bytes as two's complement gets the number that the library read before. *)
Theorem C87_numbers : forall s v s' path x name b, loads s = Ok v -> json_ok v -> rewrite_text s = Ok s' ->
  reach v path = Ok x -> In name number_names -> get_b64 x name = Ok b ->
  exists w y b', loads s' = Ok w /\ reach w path = Ok y /\ get_b64 y name = Ok b' /\ signed b' = BytesToLong b /\ BytesToLong b' = BytesToLong b.
Proof.
  intros s v s' path x name b L O T H HN G. destruct (rewrite_text_inv s s' v L O T) as (w & R & -> & O' & L').
  assert (HX : exists m, x = JObj m). { unfold get_b64, get_str in G. apply bind_Ok in G as (t & Gt & _). apply bind_Ok in Gt as (z & Gz & _). destruct x; try discriminate. eauto. }
  destruct (reach_conv path v w x R H HX) as (y & Hy & Ry). exists w, y, (x00 :: b). split; [exact L'|]. split; [exact Hy|].
  split; [apply (rewrite_get_b64 x y name b); [apply names_are_fields; exact HN | exact Ry | exact G]|]. split; [|apply lead_zero].
  unfold signed. change (ord x00 <? 128) with true. cbv iota. apply lead_zero.
Qed.
Print Assumptions C87_numbers.

(** Nothing else in the key is changed. *)
Theorem C87_other_members : forall s v s' path x name z, loads s = Ok v -> json_ok v -> rewrite_text s = Ok s' ->
  reach v path = Ok x -> ~ In name number_names -> get x name = Ok z -> (forall m, z <> JObj m) ->
  exists w y, loads s' = Ok w /\ reach w path = Ok y /\ get y name = Ok z.
Proof.
  intros s v s' path x name z L O T H HN G NZ. destruct (rewrite_text_inv s s' v L O T) as (w & R & -> & O' & L').
  assert (HX : exists m, x = JObj m) by (destruct x; try discriminate; eauto).
  destruct (reach_conv path v w x R H HX) as (y & Hy & Ry). exists w, y. split; [exact L'|]. split; [exact Hy|].
  destruct (rewrite_get_obj x y name z) as (u & Gu & U); [destruct (in_fields (tx name)) eqn:E; [apply names_are_fields in E; contradiction | reflexivity] | exact Ry | exact G|].
  destruct z; try (subst u; exact Gu). exfalso. exact (NZ m eq_refl).
Qed.
Print Assumptions C87_other_members.

(** ** The key files that the library writes are converted *)

Lemma encode_no_space s : filter (fun c => negb (c =? 32)%N) (text_of_str (Base64WSEncode s)) = text_of_str (Base64WSEncode s).
Proof.
  pose proof (encode_no_uws s) as H. apply filter_all. apply Forall_forall. intros c HI. rewrite <- H in HI. apply filter_In in HI as [_ HI]. exact HI.
Qed.
Lemma decode_encoded s : b64_decode (text_of_str (Base64WSEncode s)) = Ok s.
Proof.
  pose proof (base64_roundtrip_u s) as H. unfold Base64WSDecode_u in H. rewrite encode_no_uws in H. unfold b64_decode. rewrite encode_no_space.
  rewrite str_of_text_of_str in H |- * by apply encode_ascii. cbn [bind] in H |- *. unfold decode_stripped in H. cbv zeta in H |- *.
  destruct (_ =? 1); [discriminate|]. match type of H with match ?x with Ok _ => _ | Raise _ => _ end = _ => destruct x as [b|[]]; try discriminate end. exact H.
Qed.

Lemma convert_jb64 k b : in_fields k = true -> convert_member k (jb64 b) = Ok (jb64 (x00 :: b)).
Proof. intros F. unfold convert_member, jb64. cbn [bind]. rewrite F, decode_encoded. reflexivity. Qed.

Lemma convert_plain k v : in_fields k = false -> (forall m, v <> JObj m) -> convert_member k v = Ok v.
Proof. intros F N. unfold convert_member. rewrite F. destruct v; try reflexivity. exfalso. exact (N m eq_refl). Qed.
Lemma convert_inner k v w : in_fields k = false -> rewrite_rec v = Ok w -> convert_member k v = Ok w.
Proof. intros F R. unfold convert_member. rewrite F. destruct (rewrite_is_obj v w R) as (m & m' & -> & _). rewrite R. reflexivity. Qed.

Lemma has_member_cons k0 v0 m k : has_member ((k0, v0) :: m) k = has_member m k || text_eqb k0 k.
Proof. unfold has_member. cbn [last_member]. destruct (last_member m k); [reflexivity|]. destruct (text_eqb k0 k); reflexivity. Qed.

Ltac members := rewrite rewrite_obj; cbn [map fst snd];
  repeat (cbn [convert_members]; rewrite ?has_member_cons;
    match goal with |- context [if ?b then _ else _] => replace b with false by (vm_compute; reflexivity) end; cbv iota;
    first [match goal with R : rewrite_rec ?v = Ok _ |- context [convert_member ?k ?v] => rewrite (convert_inner k v _ ltac:(vm_compute; reflexivity) R) end | rewrite convert_jb64 by (vm_compute; reflexivity) | rewrite convert_plain by first [vm_compute; reflexivity | intros; discriminate]]; cbn [bind]);
  cbn [convert_members bind].

Lemma rsapub_converts k : exists w, rewrite_rec (rsapub_json k) = Ok w.
Proof. unfold rsapub_json, jobj. members. eexists. reflexivity. Qed.
Lemma dsapub_converts k : exists w, rewrite_rec (dsapub_json k) = Ok w.
Proof. unfold dsapub_json, jobj. members. eexists. reflexivity. Qed.

Lemma hmac_converts k : exists w, rewrite_rec (hmac_json k) = Ok w.
Proof. unfold hmac_json, jobj. members. eexists. reflexivity. Qed.

Lemma key_converts k : exists w, rewrite_rec (key_json k) = Ok w.
Proof.
  destruct k as [k|k|k|k|k|k]; cbn [key_json].
  - destruct (hmac_converts (ak_hmac k)) as (h & R). unfold aes_json, jobj. members. eexists. reflexivity.
  - apply hmac_converts.
  - destruct (dsapub_converts (ds_pub k)) as (h & R). unfold dsapriv_json, jobj. members. eexists. reflexivity.
  - apply dsapub_converts.
  - destruct (rsapub_converts (rs_pub k)) as (h & R). unfold rsapriv_json, jobj. members. eexists. reflexivity.
  - apply rsapub_converts.
Qed.

(** Every key file that the library writes is converted, and read again as the same key. *)
Theorem C87_written : forall k s, key_wf k -> key_str k = Ok s ->
  exists s' k', rewrite_text s = Ok s' /\ ReadKey (key_type k) s' = Ok k' /\ same_key k k' /\ key_hash_id k' = key_hash_id k.
Proof.
  intros k s W H. rewrite (key_str_eq k W) in H. apply Ok_inj in H as <-. destruct (key_converts k) as (w & R).
  assert (T : rewrite_text (dumps (key_json k)) = Ok (dumps w)) by (unfold rewrite_text; rewrite (loads_dumps _ (key_json_ok k W)); cbn [bind]; rewrite R; reflexivity).
  destruct (C87_key (key_type k) _ _ _ k (loads_dumps _ (key_json_ok k W)) (key_json_ok k W) T (key_rt k W)) as (k' & E & S & Hh). exists (dumps w), k'. auto.
Qed.
Print Assumptions C87_written.

(** ** The files *)

Lemma write_file_ok f d l n : has_dir f l = true -> exists g, exec (write_file l n d) f = (g, Ok tt) /\ set_to f g l n d.
Proof. intros H. destruct (WriteFile_ok f d l n H) as (g & E & S). exists g. split; [|exact S]. unfold write_file, WriteFile in *. cbn [exec] in *. rewrite H in *. exact E. Qed.

Lemma exec_rewrite_key src dst n f g r : has_dir f dst = true -> exec (rewrite_key src dst n) f = (g, r) ->
  (r = Ok tt /\ exists s s', file f src (key_file n) = Some s /\ rewrite_text s = Ok s' /\ set_to f g dst (key_file n) s') \/ (g = f /\ exists e, r = Raise e).
Proof.
  intros HD H. unfold rewrite_key, read_file in H. cbn [pbind exec] in H. change (int_to_str n) with (key_file n) in H.
  destruct (file f src (key_file n)) as [s|] eqn:F; cbn [pbind exec] in H; [|apply pair_inj in H as [<- <-]; eauto].
  unfold pure in H. destruct (rewrite_text s) as [s'|e] eqn:T; cbn [pbind exec] in H; [|apply pair_inj in H as [<- <-]; eauto].
  destruct (write_file_ok f s' dst (key_file n) HD) as (g' & E & S). rewrite E in H. apply pair_inj in H as [<- <-]. left. split; [reflexivity|]. exists s, s'. auto.
Qed.

Lemma exec_rewrite_keys src dst : src <> dst -> forall vs f g r, has_dir f dst = true -> exec (rewrite_keys src dst vs) f = (g, r) ->
  (forall l, has_dir g l = has_dir f l) /\ (forall l n, l <> dst -> file g l n = file f l n) /\
  (forall n, file g dst n = file f dst n \/ exists s s', file f src n = Some s /\ rewrite_text s = Ok s' /\ file g dst n = Some s') /\
  file g dst meta_file = file f dst meta_file /\
  (r = Ok tt -> forall v, In v vs -> exists n s s', get_int v "versionNumber" = Ok n /\ file f src (key_file n) = Some s /\ rewrite_text s = Ok s' /\ file g dst (key_file n) = Some s').
Proof.
  intros ND. induction vs as [|v vs IH]; intros f g r HD H; cbn [rewrite_keys] in H.
  - cbn [exec] in H. apply pair_inj in H as [<- <-]. repeat split; auto. intros _ v [].
  - unfold pure in H. destruct (get_int v "versionNumber") as [n|e] eqn:G; cbn [pbind exec] in H; [|apply pair_inj in H as [<- <-]; repeat split; auto; discriminate].
    rewrite exec_bind in H. destruct (exec (rewrite_key src dst n) f) as [f1 r1] eqn:E1.
    destruct (exec_rewrite_key src dst n f f1 r1 HD E1) as [(-> & s & s' & F & T & [S1 S2])|(-> & e & ->)]; [|apply pair_inj in H as [<- <-]; repeat split; auto; discriminate].
    assert (HD1 : has_dir f1 dst = true) by (rewrite S1; exact HD). destruct (IH f1 g r HD1 H) as (I1 & I2 & I3 & I4 & I5).
    assert (SRC : forall m, file f1 src m = file f src m) by (intros m; rewrite S2, (str_eqb_neq dst src) by congruence; reflexivity).
    split; [intros l; rewrite I1; apply S1|]. split; [intros l m NL; rewrite (I2 l m NL), S2, (str_eqb_neq dst l) by congruence; reflexivity|].
    split; [|split].
    + intros m. destruct (I3 m) as [E|(t & t' & Ft & Tt & E)].
      * rewrite E, S2, str_eqb_refl. cbn [andb]. destruct (str_eqb (key_file n) m) eqn:EM; [|left; reflexivity]. apply str_eqb_eq in EM as <-. right. exists s, s'. auto.
      * right. exists t, t'. rewrite <- SRC. auto.
    + rewrite I4, S2, str_eqb_refl, key_meta_eqb. reflexivity.
    + intros ER u [<-|HI].
      * exists n, s, s'. split; [exact G|]. split; [exact F|]. split; [exact T|]. destruct (I3 (key_file n)) as [E|(t & t' & Ft & Tt & E)].
        -- rewrite E, S2, !str_eqb_refl. reflexivity.
        -- rewrite SRC in Ft. rewrite E. congruence.
      * destruct (I5 ER u HI) as (n' & t & t' & Gt & Ft & Tt & E). exists n', t, t'. rewrite SRC in Ft. auto.
Qed.

Lemma exec_iterate src dst f g : src <> dst -> has_dir f dst = true -> exec (iterate_meta src dst) f = (g, Ok tt) ->
  exists ms j x vs, file f src meta_file = Some ms /\ loads ms = Ok j /\ get j "versions" = Ok x /\ iterated x = Ok vs /\
  (forall l, has_dir g l = has_dir f l) /\ (forall l n, l <> dst -> file g l n = file f l n) /\ file g dst meta_file = Some ms /\
  (forall v, In v vs -> exists n s s', get_int v "versionNumber" = Ok n /\ file f src (key_file n) = Some s /\ rewrite_text s = Ok s' /\ file g dst (key_file n) = Some s').
Proof.
  intros ND HD H. unfold iterate_meta, read_file, pure in H. cbn [pbind exec] in H. change (bs "meta") with meta_file in H.
  destruct (file f src meta_file) as [ms|] eqn:F; cbn [pbind exec] in H; [|discriminate].
  destruct (loads ms) as [j|e] eqn:L; cbn [pbind exec] in H; [|discriminate].
  destruct (get j "versions") as [x|e] eqn:G; cbn [pbind exec] in H; [|discriminate].
  destruct (iterated x) as [vs|e] eqn:I; cbn [pbind exec] in H; [|discriminate].
  rewrite exec_bind in H. destruct (exec (rewrite_keys src dst vs) f) as [f1 r1] eqn:E1.
  destruct (exec_rewrite_keys src dst ND vs f f1 r1 HD E1) as (K1 & K2 & K3 & K4 & K5). destruct r1 as [[]|e]; [|discriminate].
  assert (HD1 : has_dir f1 dst = true) by (rewrite K1; exact HD). destruct (write_file_ok f1 ms dst meta_file HD1) as (g' & E & [S1 S2]). rewrite E in H. apply pair_inj in H as [<- _].
  exists ms, j, x, vs. split; [reflexivity|]. split; [exact L|]. split; [exact G|]. split; [exact I|]. split; [intros l; rewrite S1; apply K1|].
  split; [intros l n NL; rewrite S2, (str_eqb_neq dst l) by congruence; cbn [andb]; apply K2; exact NL|]. split; [rewrite S2, !str_eqb_refl; reflexivity|].
  intros v HI. destruct (K5 eq_refl v HI) as (n & s & s' & Gn & Fs & Ts & E'). exists n, s, s'. repeat split; auto. rewrite S2, meta_key_eqb, andb_false_r. exact E'.
Qed.

Lemma iterated_arr j vs x : get j "versions" = Ok x -> iterated x = Ok vs -> forall l, get_arr j "versions" = Ok l -> vs = l.
Proof. intros G I l A. unfold get_arr in A. rewrite G in A. cbn [bind] in A. destruct x; try discriminate. cbn [iterated] in I. congruence. Qed.

(** ** Opening the converted set *)

Definition same_held (k k' : key) : Prop := same_key k k' /\ key_hash_id k' = key_hash_id k.
Definition paired {A} (l l' : list (A * key)) : Prop := Forall2 (fun p p' => fst p' = fst p /\ same_held (snd p) (snd p')) l l'.

Lemma paired_set (l l' : list (str * key)) h k k' : paired l l' -> same_held k k' -> paired (dict_set str_eqb l h k) (dict_set str_eqb l' h k').
Proof.
  intros P S. induction P as [|[a x] [a' x'] l l' [E Sx] P IH]; cbn [dict_set].
  - constructor; [split; [reflexivity | exact S] | constructor].
  - cbn [fst snd] in E, Sx. subst a'. destruct (str_eqb a h); constructor; try (split; [reflexivity | assumption]); assumption.
Qed.

Lemma paired_assoc {A} (eqb : A -> A -> bool) (l l' : list (A * key)) a : paired l l' ->
  match assoc eqb l a with Some k => exists k', assoc eqb l' a = Some k' /\ same_held k k' | None => assoc eqb l' a = None end.
Proof.
  induction 1 as [|[b x] [b' x'] l l' [E Sx] P IH]; cbn [assoc]; [reflexivity|]. cbn [fst snd] in E, Sx. subst b'. destruct (eqb b a); [exists x'; auto | exact IH].
Qed.

Lemma load_alike rd rd' t : forall vs o p vk hk vk' hk' q vk1 hk1,
  (forall v s k, In v vs -> rd_key rd (v_num v) = Ok s -> ReadKey t s = Ok k -> exists s' k', rd_key rd' (v_num v) = Ok s' /\ ReadKey t s' = Ok k' /\ same_held k k') ->
  paired vk vk' -> paired hk hk' -> load_keys rd t o vs p vk hk = Ok (q, vk1, hk1) ->
  exists vk1' hk1', load_keys rd' t o vs p vk' hk' = Ok (q, vk1', hk1') /\ paired vk1 vk1' /\ paired hk1 hk1'.
Proof.
  induction vs as [|v vs IH]; intros o p vk hk vk' hk' q vk1 hk1 A P1 P2 H; cbn [load_keys] in *.
  - apply Ok_inj in H. injection H as <- <- <-. exists vk', hk'. auto.
  - apply bind_Ok in H as (p' & Ep & H). rewrite Ep. cbn [bind]. apply bind_Ok in H as (s & Es & H). apply bind_Ok in H as (k & Ek & H). apply bind_Ok in H as (h & Eh & H).
    destruct (A v s k (or_introl eq_refl) Es Ek) as (s' & k' & Es' & Ek' & S). rewrite Es'. cbn [bind]. rewrite Ek'. cbn [bind]. rewrite (proj2 S), Eh. cbn [bind].
    apply (IH (Datatypes.S o) p' (vk ++ [(o, k)]) (dict_set str_eqb hk h k) _ _ q vk1 hk1); [intros v' s0 k0 HI; apply A; right; exact HI | | apply paired_set; assumption | exact H].
    apply Forall2_app; [exact P1|]. constructor; [split; [reflexivity | exact S] | constructor].
Qed.

Lemma add_versions_nums : forall l m m', add_versions m l = Ok m' -> forall v, In v (meta_versions m') ->
  In v (meta_versions m) \/ exists j, In j l /\ get_int j "versionNumber" = Ok (v_num v).
Proof.
  induction l as [|j l IH]; intros m m' H v HI; cbn [add_versions] in H; [apply Ok_inj in H as <-; auto|].
  apply bind_Ok in H as (w & Ew & H). destruct (IH _ m' H v HI) as [I|(x & I & G)]; [|right; exists x; split; [right; exact I | exact G]].
  unfold meta_AddVersion in I. destruct (assoc Z.eqb (m_versions m) (v_num w)); cbn [fst] in I; [left; exact I|].
  unfold meta_versions in I. cbn [m_versions] in I. rewrite map_app in I. apply in_app_or in I as [I|[<-|[]]]; [left; exact I|]. right. exists j. split; [left; reflexivity|].
  cbn [snd]. unfold version_read in Ew. apply bind_Ok in Ew as (n & En & Ew). apply bind_Ok in Ew as (a & _ & Ew). apply bind_Ok in Ew as (b & _ & Ew). apply bind_Ok in Ew as (c & _ & Ew).
  apply Ok_inj in Ew as <-. exact En.
Qed.

Lemma meta_lists ms m : meta_Read ms = Ok m -> forall v, In v (meta_versions m) -> lists_version ms (v_num v).
Proof.
  unfold meta_Read. intros H v HI. apply bind_Ok in H as (j & Lj & H). do 5 (apply bind_Ok in H as (? & _ & H)). apply bind_Ok in H as (? & _ & H).
  apply bind_Ok in H as (l & Gl & H). destruct (add_versions_nums l _ m H v HI) as [[]|(y0 & I & G)]. exists j, l, y0. auto.
Qed.

(** ** Answers *)

Definition alike (ks ks' : keyset) : Prop :=
  ks_objs ks' = ks_objs ks /\ ks_primary ks' = ks_primary ks /\ paired (ks_vkeys ks) (ks_vkeys ks') /\ paired (ks_hkeys ks) (ks_hkeys ks').

Lemma alike_get ks ks' h : alike ks ks' -> match GetKey_hash ks h with Ok k => exists k', GetKey_hash ks' h = Ok k' /\ same_held k k' | Raise e => GetKey_hash ks' h = Raise e end.
Proof. intros (_ & _ & _ & HH). unfold GetKey_hash. pose proof (paired_assoc str_eqb _ _ h HH) as P. destruct (assoc str_eqb (ks_hkeys ks) h) as [k|]; [destruct P as (k' & -> & S); eauto | rewrite P; reflexivity]. Qed.
Lemma alike_header ks ks' h : alike ks ks' -> match ParseHeader ks h with Ok k => exists k', ParseHeader ks' h = Ok k' /\ same_held k k' | Raise e => ParseHeader ks' h = Raise e end.
Proof. intros HA. unfold ParseHeader. destruct (index h 0) as [c|e]; cbn [bind]; [|reflexivity]. destruct (negb _); [reflexivity | apply alike_get; exact HA]. Qed.
Lemma alike_primary ks ks' : alike ks ks' -> match primary_key ks with Ok k => exists k', primary_key ks' = Ok k' /\ same_held k k' | Raise e => primary_key ks' = Raise e end.
Proof.
  intros (HO & HP & HV & _). unfold primary_key, GetKey_version. rewrite HP. destruct (ks_primary ks) as [o|]; [|reflexivity]. pose proof (paired_assoc Nat.eqb _ _ o HV) as P.
  destruct (assoc Nat.eqb (ks_vkeys ks) o) as [k|]; [destruct P as (k' & -> & S); eauto | rewrite P, HO; reflexivity].
Qed.

Lemma alike_decrypt k k' d : same_held k k' -> key_Decrypt k' d = key_Decrypt k d.
Proof.
  intros [S _]. destruct k as [k|k|k|k|k|k], k' as [k'|k'|k'|k'|k'|k']; try contradiction S; cbn [same_key] in S; try (subst; reflexivity); try reflexivity.
  destruct S as (S & _ & _). cbn [key_Decrypt]. unfold RsaPrivateKey_Decrypt. rewrite S. reflexivity.
Qed.
Lemma alike_verify k k' m s : same_held k k' -> key_Verify k' m s = key_Verify k m s.
Proof.
  intros [S _]. destruct k as [k|k|k|k|k|k], k' as [k'|k'|k'|k'|k'|k']; try contradiction S; cbn [same_key] in S; try (subst; reflexivity); cbn [key_Verify];
    unfold DsaPublicKey_Verify, RsaPublicKey_Verify.
  - destruct S as (_ & _ & S1 & S2). rewrite S1. reflexivity.
  - destruct S as (S1 & S2). rewrite S1. reflexivity.
  - destruct S as (_ & _ & S1 & S2). rewrite S1, S2. reflexivity.
  - destruct S as (S1 & S2). rewrite S1, S2. reflexivity.
Qed.
Lemma alike_encrypt e k k' m : same_held k k' -> key_Encrypt e k' m = key_Encrypt e k m.
Proof.
  intros [S Hh]. destruct k as [k|k|k|k|k|k], k' as [k'|k'|k'|k'|k'|k']; try contradiction S; cbn [same_key key_hash_id] in S, Hh; try (subst; reflexivity); try reflexivity; cbn [key_Encrypt];
    unfold RsaPublicKey_Encrypt; apply Ok_inj in Hh; rewrite Hh.
  - destruct S as (_ & _ & S1 & S2). rewrite S1. reflexivity.
  - destruct S as (S1 & S2). rewrite S1. reflexivity.
Qed.
Lemma alike_sign e k k' m : same_held k k' -> key_Sign e k' m = key_Sign e k m.
Proof.
  intros [S Hh]. destruct k as [k|k|k|k|k|k], k' as [k'|k'|k'|k'|k'|k']; try contradiction S; cbn [same_key] in S; try (subst; reflexivity); try reflexivity; cbn [key_Sign];
    unfold DsaPrivateKey_Sign, RsaPrivateKey_Sign.
  - destruct S as (S1 & S2 & _). rewrite S1. reflexivity.
  - destruct S as (S1 & S2 & _). rewrite S1, S2. reflexivity.
Qed.
Lemma alike_head k k' : same_held k k' -> key_header k' = key_header k.
Proof. intros [_ Hh]. unfold key_header. rewrite Hh. reflexivity. Qed.
Lemma alike_any m s (l l' : list (nat * key)) : paired l l' -> verify_any l' m s = verify_any l m s.
Proof. induction 1 as [|[a x] [a' x'] l l' [_ S] P IH]; [reflexivity|]. cbn [verify_any fst snd] in *. rewrite (alike_verify x x' m s S), IH. reflexivity. Qed.

Lemma alike_iv ks ks' h sg d n : alike ks ks' -> InternalVerify ks' h sg d n = InternalVerify ks h sg d n.
Proof.
  intros HA. unfold InternalVerify. pose proof (alike_header ks ks' h HA) as P. destruct (ParseHeader ks h) as [k|e]; [|rewrite P; reflexivity]. destruct P as (k' & -> & S). cbn [bind].
  destruct (PackByteArray n); [|reflexivity]. cbn [bind]. apply alike_verify. exact S.
Qed.
Lemma alike_is ks ks' e d n : alike ks ks' -> InternalSign e ks' d n = InternalSign e ks d n.
Proof.
  intros HA. unfold InternalSign. pose proof (alike_primary ks ks' HA) as P. destruct (primary_key ks) as [k|x]; [|rewrite P; reflexivity]. destruct P as (k' & -> & S). cbn [bind].
  destruct (PackByteArray n); [|reflexivity]. cbn [bind]. apply alike_sign. exact S.
Qed.

Lemma alike_answers ks ks' : alike ks ks' -> answer_alike ks ks'.
Proof.
  intros HA. unfold answer_alike. repeat split.
  - intros c d. unfold Decrypt. destruct (apply_codec d c) as [b|e]; [|reflexivity]. cbn [bind]. destruct (_ <? _); [reflexivity|].
    pose proof (alike_header ks ks' (slice_to b HEADER_SIZE) HA) as P. destruct (ParseHeader ks _) as [k|e]; [|rewrite P; reflexivity]. destruct P as (k' & -> & S). cbn [bind]. apply alike_decrypt. exact S.
  - intros m sg d. unfold Verify. destruct (apply_codec d sg) as [b|e]; [|reflexivity]. cbn [bind]. destruct (_ <? _); [reflexivity | apply alike_iv; exact HA].
  - intros m n d. unfold AttachedVerify. destruct (apply_codec d m) as [b|e]; [|reflexivity]. cbn [bind]. destruct (UnpackByteArray b HEADER_SIZE) as [[x o]|e]; [|reflexivity]. cbn [bind].
    rewrite (alike_iv ks ks' _ _ _ _ HA). reflexivity.
  - intros m sg d. unfold UnversionedVerify. destruct (apply_codec d sg) as [b|e]; [|reflexivity]. cbn [bind]. apply alike_any. apply HA.
  - intros e m d. unfold Encrypt. pose proof (alike_primary ks ks' HA) as P. destruct (primary_key ks) as [k|x]; [|rewrite P; reflexivity]. destruct P as (k' & -> & S). cbn [bind].
    rewrite (alike_encrypt e k k' m S). reflexivity.
  - intros e m d. unfold Sign. pose proof (alike_primary ks ks' HA) as P. destruct (primary_key ks) as [k|x]; [|rewrite P; reflexivity]. destruct P as (k' & -> & S). cbn [bind].
    rewrite (alike_head k k' S), (alike_is ks ks' _ _ _ HA). reflexivity.
  - intros e m n d. unfold AttachedSign. pose proof (alike_primary ks ks' HA) as P. destruct (primary_key ks) as [k|x]; [|rewrite P; reflexivity]. destruct P as (k' & -> & S). cbn [bind].
    rewrite (alike_head k k' S), (alike_is ks ks' _ _ _ HA). reflexivity.
  - intros e m d. unfold UnversionedSign. pose proof (alike_primary ks ks' HA) as P. destruct (primary_key ks) as [k|x]; [|rewrite P; reflexivity]. destruct P as (k' & -> & S). cbn [bind].
    rewrite (alike_sign e k k' m S). reflexivity.
Qed.

(** The converted set opens with every class that opens the original, holds the same versions, and
    answers every call as the original does. *)
Theorem C87_same_answers : forall src dst f g c ks, src <> dst -> has_dir f dst = true ->
  exec (doit src dst) f = (g, Ok tt) -> exec (read_location c src) f = (f, Ok ks) ->
  (forall n s v, file f src (key_file n) = Some s -> loads s = Ok v -> json_ok v) ->
  exists ks', exec (read_location c dst) g = (g, Ok ks') /\ ks_meta ks' = ks_meta ks /\ answer_alike ks ks'.
Proof.
  intros src dst f g c ks ND HD H HR HJ. rewrite exec_read_location in HR. destruct (has_dir f src) eqn:HS; [|discriminate].
  unfold doit in H. cbn [exec] in H. rewrite HS in H. cbn [exec] in H. rewrite HD in H. destruct (exec_iterate src dst f g ND HD H) as (ms & j & x & vs & F & L & G & I & K1 & K2 & K3 & K4).
  rewrite exec_read_location, K1, HD. rewrite exec_open in HR |- *. apply pair_inj in HR as [_ HR]. cbn [disk_reader] in HR |- *.
  unfold open_keyset in HR |- *. cbn [rd_meta file_reader] in HR |- *. rewrite F in HR. rewrite K3. cbn [answer bind] in HR |- *.
  destruct (meta_Read ms) as [m|e] eqn:EM; cbn [bind] in HR |- *; [|discriminate]. destruct (negb (IsAcceptablePurpose c (m_purpose m))); [discriminate|].
  change (rd_encrypted (file_reader f src)) with false in HR. change (rd_encrypted (file_reader g dst)) with false. destruct (m_encrypted m && negb false); [discriminate|]. apply bind_Ok in HR as ([[q vk] hk] & HL & HR). apply Ok_inj in HR as <-.
  destruct (load_alike (file_reader f src) (file_reader g dst) (m_type m) (meta_versions m) 0 None [] [] [] [] q vk hk) as (vk' & hk' & HL' & P1 & P2);
    [| constructor | constructor | exact HL|].
  - intros v s k HI Es Ek. cbn [rd_key file_reader] in Es |- *. destruct (meta_lists ms m EM v HI) as (j' & l & y & Lj & A & Iy & Gy).
    assert (j' = j) by congruence. subst j'. pose proof (iterated_arr j vs x G I l A) as ->. destruct (K4 y Iy) as (n & t & t' & Gn & Ft & Tt & Et).
    assert (n = v_num v) by congruence. subst n. rewrite Ft in Es. cbn [answer] in Es. apply Ok_inj in Es as <-.
    unfold rewrite_text in Tt. destruct (loads t) as [w|e] eqn:Lt; [|discriminate Tt].
    destruct (C87_key (m_type m) t w t' k Lt (HJ _ _ _ Ft Lt)) as (k' & Rk & S & Hh); [unfold rewrite_text; rewrite Lt; exact Tt | exact Ek|].
    exists t', k'. rewrite Et. split; [reflexivity|]. split; [exact Rk | split; assumption].
  - rewrite HL'. cbn [bind]. eexists. split; [reflexivity|]. split; [reflexivity|]. apply alike_answers. split; [reflexivity|]. split; [reflexivity|]. split; assumption.
Qed.
Print Assumptions C87_same_answers.

(** ** Where it writes, and when *)

Lemma only_iterate src dst : only (fun l => l = dst) (doit src dst).
Proof.
  assert (W : forall n d, only (fun l => l = dst) (write_file dst n d)) by (intros n d; unfold write_file; cbn [only]; split; [reflexivity|]; intros []; cbn [only]; auto).
  assert (RF : forall l n, only (fun l => l = dst) (read_file l n)) by (intros l n; unfold read_file; cbn [only]; intros []; exact I).
  assert (PU : forall A (r : res A), only (fun l => l = dst) (pure r)) by (intros A r; exact I).
  assert (RK : forall vs, only (fun l => l = dst) (rewrite_keys src dst vs)).
  { induction vs as [|v vs IH]; [exact I|]. cbn [rewrite_keys]. apply only_bind; [apply PU|]. intros n. apply only_bind; [|intros _; exact IH].
    unfold rewrite_key. apply only_bind; [apply RF|]. intros s. apply only_bind; [apply PU|]. intros s'. apply W. }
  unfold doit. cbn [only]. intros []; [|exact I]. cbn [only]. intros []; [|exact I]. unfold iterate_meta.
  apply only_bind; [apply RF|]. intros ms. apply only_bind; [apply PU|]. intros j. apply only_bind; [apply PU|]. intros x. apply only_bind; [apply PU|]. intros l.
  apply only_bind; [apply RK|]. intros _. apply W.
Qed.

(** Whenever it is stopped, nothing outside the destination has changed: the original set is intact. *)
Theorem C87_source_intact : forall src dst f g, during f (doit src dst) g -> forall l n, l <> dst -> file g l n = file f l n.
Proof. intros src dst f g H l n NL. apply (during_only (fun l => l = dst) _ f g (only_iterate src dst) H). exact NL. Qed.
Print Assumptions C87_source_intact.

Lemma during_write_file f d l n g : during f (write_file l n d) g -> g = f \/ exists d1 d2, d = d1 ++ d2 /\ has_dir f l = true /\ set_to f g l n d1.
Proof.
  intros H. unfold write_file in H. apply during_cases in H as [->|[(l0 & n0 & d0 & d1 & d2 & k0 & EP & _)|(f' & p' & ES & HS)]]; [left; reflexivity | discriminate EP|]. cbn [dstep] in ES.
  destruct (has_dir f l) eqn:HD; apply pair_inj in ES as [<- <-]; [|left; apply during_Done in HS; exact HS].
  assert (HW : during f (WriteFile d l n) g); [|destruct (during_WriteFile f d l n g HW) as [X|(d1 & d2 & X & _ & Y)]; [left; exact X | right; exists d1, d2; auto]].
  unfold WriteFile. apply (DurStep _ _ (set_file f l n []) (Write l n d (Done (Ok tt)))); [cbn [dstep]; rewrite HD; reflexivity | exact HS].
Qed.

Lemma pair_meta src dst n f g : has_dir f dst = true -> during f (rewrite_key src dst n) g -> file g dst meta_file = file f dst meta_file.
Proof.
  intros HD H. unfold rewrite_key in H. apply during_bind in H as [H|(f1 & s & E & H)].
  - apply during_reads in H as ->; [reflexivity|]. unfold read_file. cbn [reads]. intros []; exact I.
  - unfold read_file in E. cbn [exec] in E. destruct (file f src (int_to_str n)); [|discriminate E]. cbn [exec] in E. apply pair_inj in E as [<- _].
    apply during_bind in H as [H|(f2 & s' & E2 & H)]; [apply during_Done in H as ->; reflexivity|]. rewrite exec_pure in E2. apply pair_inj in E2 as [<- _].
    apply during_write_file in H as [->|(d1 & d2 & _ & _ & S)]; [reflexivity|]. apply (set_to_other f g _ _ d1 dst meta_file S). right. intros C. symmetry in C. exact (key_file_meta n C).
Qed.

Lemma keys_meta src dst : forall vs f g, has_dir f dst = true -> during f (rewrite_keys src dst vs) g -> file g dst meta_file = file f dst meta_file.
Proof.
  induction vs as [|v vs IH]; intros f g HD H; cbn [rewrite_keys] in H; [apply during_Done in H as ->; reflexivity|].
  unfold pure in H. destruct (get_int v "versionNumber") as [n|e]; cbn [pbind] in H; [|apply during_Done in H as ->; reflexivity].
  apply during_bind in H as [H|(f1 & [] & E & H)]; [exact (pair_meta src dst n f g HD H)|].
  destruct (exec_rewrite_key src dst n f f1 _ HD E) as [(_ & s & s' & _ & _ & S)|(_ & e & C)]; [|discriminate].
  rewrite (IH f1 g); [|rewrite (proj1 S); exact HD | exact H]. apply (set_to_other f f1 _ _ s' dst meta_file S). right. intros C. symmetry in C. exact (key_file_meta n C).
Qed.

(** The metadata come last: whenever it is stopped, either the metadata of the destination are as they
    were before, or every version that the original lists has been converted. *)
Theorem C87_metadata_last : forall src dst f g, src <> dst -> during f (doit src dst) g ->
  file g dst meta_file = file f dst meta_file \/
  exists ms, file f src meta_file = Some ms /\ forall n, lists_version ms n ->
    exists s s', file f src (key_file n) = Some s /\ rewrite_text s = Ok s' /\ file g dst (key_file n) = Some s'.
Proof.
  intros src dst f g ND H. unfold doit in H.
  apply during_cases in H as [->|[(l0 & n0 & d0 & d1 & d2 & k0 & EP & _)|(f' & p' & ES & H)]]; [left; reflexivity | discriminate EP|]. cbn [dstep] in ES. apply pair_inj in ES as [<- <-].
  destruct (has_dir f src); [|apply during_Done in H as ->; left; reflexivity].
  apply during_cases in H as [->|[(l0 & n0 & d0 & d1 & d2 & k0 & EP & _)|(f' & p' & ES & H)]]; [left; reflexivity | discriminate EP|]. cbn [dstep] in ES. apply pair_inj in ES as [<- <-].
  destruct (has_dir f dst) eqn:HD; [|apply during_Done in H as ->; left; reflexivity].
  unfold iterate_meta in H. apply during_bind in H as [H|(f1 & ms & E & H)].
  { apply during_reads in H as ->; [left; reflexivity|]. unfold read_file. cbn [reads]. intros []; exact I. }
  unfold read_file in E. cbn [exec] in E. change (bs "meta") with meta_file in *. destruct (file f src meta_file) as [s0|] eqn:F; [|discriminate E]. cbn [exec] in E. apply pair_inj in E as [<- E]. apply Ok_inj in E as ->.
  unfold pure in H. destruct (loads ms) as [j|e] eqn:L; cbn [pbind] in H; [|apply during_Done in H as ->; left; reflexivity].
  destruct (get j "versions") as [x|e] eqn:G; cbn [pbind] in H; [|apply during_Done in H as ->; left; reflexivity].
  destruct (iterated x) as [vs|e] eqn:IT; cbn [pbind] in H; [|apply during_Done in H as ->; left; reflexivity].
  apply during_bind in H as [H|(f2 & [] & E & H)]; [left; exact (keys_meta src dst vs f g HD H)|].
  destruct (exec_rewrite_keys src dst ND vs f f2 _ HD E) as (K1 & K2 & K3 & K4 & K5).
  apply during_write_file in H as [->|(d1 & d2 & _ & _ & S)]; [left; exact K4|]. right. exists ms. split; [reflexivity|].
  intros n (j' & l & v & Lj & A & HI & Gv). assert (j' = j) by congruence. subst j'. pose proof (iterated_arr j vs x G IT l A) as ->.
  destruct (K5 eq_refl v HI) as (n' & s & s' & Gn & Fs & Ts & Es). assert (n' = n) by congruence. subst n'. exists s, s'. split; [exact Fs|]. split; [exact Ts|].
  rewrite (set_to_other f2 g _ _ d1 dst (key_file n) S); [exact Es|]. right. apply key_file_meta.
Qed.
Print Assumptions C87_metadata_last.

(** The script succeeds on every set whose metadata can be read and whose listed key files it can
    convert. *)
Lemma rewrite_keys_total src dst : src <> dst -> forall vs f, has_dir f dst = true ->
  (forall v, In v vs -> exists n s s', get_int v "versionNumber" = Ok n /\ file f src (key_file n) = Some s /\ rewrite_text s = Ok s') ->
  exists g, exec (rewrite_keys src dst vs) f = (g, Ok tt) /\ has_dir g dst = true.
Proof.
  intros ND. induction vs as [|v vs IH]; intros f HD A; cbn [rewrite_keys]; [exists f; auto|]. destruct (A v (or_introl eq_refl)) as (n & s & s' & G & F & T).
  unfold pure. rewrite G. cbn [pbind]. rewrite exec_bind. unfold rewrite_key, read_file. cbn [pbind exec]. change (int_to_str n) with (key_file n). rewrite F. cbn [pbind exec].
  unfold pure. rewrite T. cbn [pbind]. destruct (write_file_ok f s' dst (key_file n) HD) as (f1 & E & [S1 S2]). rewrite E.
  apply (IH f1); [rewrite S1; exact HD|]. intros u HI. destruct (A u (or_intror HI)) as (n' & t & t' & G' & F' & T'). exists n', t, t'. split; [exact G'|]. split; [|exact T'].
  rewrite S2, (str_eqb_neq dst src) by congruence. exact F'.
Qed.

Theorem C87_converts : forall src dst f ms m, src <> dst -> has_dir f dst = true -> file f src meta_file = Some ms -> meta_Read ms = Ok m ->
  (forall n, lists_version ms n -> exists s s', file f src (key_file n) = Some s /\ rewrite_text s = Ok s') ->
  exists g, exec (doit src dst) f = (g, Ok tt) /\ file g dst meta_file = Some ms.
Proof.
  intros src dst f ms m ND HD F EM A. unfold doit. cbn [exec]. rewrite (has_dir_file _ _ _ _ F). cbn [exec]. rewrite HD.
  unfold meta_Read in EM. apply bind_Ok in EM as (j & L & EM). do 6 (apply bind_Ok in EM as (? & _ & EM)). apply bind_Ok in EM as (l & GA & EM).
  pose proof GA as G. unfold get_arr in G. apply bind_Ok in G as (y0 & G & Gy). destruct y0; try discriminate. apply Ok_inj in Gy as ->.
  assert (B : forall v, In v l -> exists n s s', get_int v "versionNumber" = Ok n /\ file f src (key_file n) = Some s /\ rewrite_text s = Ok s').
  { intros v HI. assert (N : exists n, get_int v "versionNumber" = Ok n).
    { clear - EM HI. revert EM. match goal with |- add_versions ?a _ = _ -> _ => generalize a end. induction l as [|w l IH]; intros a EM; [destruct HI|]. cbn [add_versions] in EM. apply bind_Ok in EM as (u & Eu & EM).
      destruct HI as [->|HI]; [|exact (IH HI _ EM)]. unfold version_read in Eu. apply bind_Ok in Eu as (n & En & _). eauto. }
    destruct N as (n & Gn). destruct (A n) as (s & s' & Fs & Ts); [exists j, l, v; auto|]. exists n, s, s'. auto. }
  destruct (rewrite_keys_total src dst ND l f HD B) as (g & E & HG). destruct (write_file_ok g ms dst meta_file HG) as (g2 & E2 & [S1 S2]).
  exists g2. split; [|rewrite S2, !str_eqb_refl; reflexivity]. unfold iterate_meta, read_file, pure. cbn [pbind exec]. change (bs "meta") with meta_file. rewrite F. cbn [pbind exec].
  rewrite L. cbn [pbind]. rewrite G. cbn [pbind iterated]. rewrite exec_bind, E. exact E2.
Qed.
Print Assumptions C87_converts.

(** A public RSA key set with one key whose modulus (the bytes 128 1) Java would read as a negative
    number. *)
Definition old_meta : str := bs "{""name"": ""k"", ""purpose"": ""VERIFY"", ""type"": ""RSA_PUB"", ""encrypted"": false, ""versions"": [{""versionNumber"": 1, ""status"": ""PRIMARY"", ""exportable"": false}]}".
Definition old_key : str := bs "{""modulus"": ""gAE"", ""publicExponent"": ""AQAB"", ""size"": 2048}".
Definition new_key : str := bs "{""modulus"": ""AIAB"", ""publicExponent"": ""AAEAAQ"", ""size"": 2048}".
Definition old_disk : disk := [(bs "old", [(bs "meta", old_meta); (bs "1", old_key)]); (bs "new", [])].

Example C87_case :
  bs "old" <> bs "new" /\ has_dir old_disk (bs "new") = true /\
  exec (doit (bs "old") (bs "new")) old_disk =
    ([(bs "old", [(bs "meta", old_meta); (bs "1", old_key)]); (bs "new", [(bs "1", new_key); (bs "meta", old_meta)])], Ok tt) /\
  (exists ks, exec (read_location Verifier (bs "old")) old_disk = (old_disk, Ok ks)) /\
  (forall n s v, file old_disk (bs "old") (key_file n) = Some s -> loads s = Ok v -> json_ok v) /\
  BytesToLong [x80; x01] = 32769 /\ signed [x80; x01] = -32767 /\ signed [x00; x80; x01] = 32769.
Proof.
  split; [intros C; vm_compute in C; discriminate C|]. split; [vm_compute; reflexivity|]. split; [vm_compute; reflexivity|].
  split; [|split; [|repeat split; vm_compute; reflexivity]].
  - rewrite exec_read_location. change (has_dir old_disk (bs "old")) with true. cbv iota. rewrite exec_open. unfold open_keyset. cbn [disk_reader file_reader rd_meta rd_encrypted].
    replace (file old_disk (bs "old") meta_file) with (Some old_meta) by (vm_compute; reflexivity). cbn [answer bind].
    replace (meta_Read old_meta) with (Ok (MkMeta (tx "k") VERIFY RSA_PUB false [(1, MkVersion 1 PRIMARY false)])) by (vm_compute; reflexivity).
    cbn [bind m_purpose m_encrypted m_type m_versions m_name IsAcceptablePurpose negb andb meta_versions map snd load_keys status_eqb v_status v_num rd_key].
    replace (file old_disk (bs "old") (key_file 1)) with (Some old_key) by (vm_compute; reflexivity). cbn [answer bind].
    replace (ReadKey RSA_PUB old_key) with (Ok (KRsaPub (MkRsaPub [x80; x01] [x01; x00; x01] (MkRsaPubNums 32769 65537) 2048))) by (vm_compute; reflexivity).
    cbn [bind key_hash_id]. eexists. reflexivity.
  - intros n s v H L. assert (X : file old_disk (bs "old") (key_file n) = Some s -> s = old_key).
    { unfold file. replace (assoc str_eqb old_disk (bs "old")) with (Some [(bs "meta", old_meta); (bs "1", old_key)]) by (vm_compute; reflexivity). cbn [assoc].
      change (bs "meta") with meta_file. rewrite meta_key_eqb. destruct (str_eqb (bs "1") (key_file n)); [intros E; apply Some_inj in E as <-; reflexivity | discriminate]. }
    rewrite (X H) in L. replace (loads old_key) with (Ok (jobj [("modulus"%string, JStr (tx "gAE")); ("publicExponent"%string, JStr (tx "AQAB")); ("size"%string, JInt 2048)])) in L by (vm_compute; reflexivity).
    apply Ok_inj in L as <-. apply jobj_ok. apply Forall_cons; [apply tx_ok|]; apply Forall_cons; [apply tx_ok|]; apply Forall_cons; [exact I | apply Forall_nil].
Qed.

(** The script does not remove line breaks before it counts characters, as the library does: a key file
    that the library reads can be one that the script refuses. *)
Example C87_line_breaks_case :
  (exists k, ReadKey RSA_PUB (bs "{""modulus"": ""gA\nE"", ""publicExponent"": ""AQAB"", ""size"": 2048}") = Ok k) /\
  rewrite_text (bs "{""modulus"": ""gA\nE"", ""publicExponent"": ""AQAB"", ""size"": 2048}") = Raise TypeError.
Proof. split; [eexists; vm_compute; reflexivity | vm_compute; reflexivity]. Qed.
