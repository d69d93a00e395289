(** * Props_Order2: the members of the JSON objects in a file may be in any order (further theorems for C89). *)
From Coq Require Import Strings.String.
From Coq Require Import List ZArith NArith Bool Lia ZifyBool ZifyNat ZifyN Permutation.
From Coq.Init Require Import Byte.
From Verif Require Import PyBase PyFacts Util UtilFacts Base64 Json JsonFacts KeyInfo KeyData SymKeys AsymKeys Keys KeysFacts Keyczar KeyczarFacts Disk DiskFacts Props_Keyset.
Import ListNotations.
Local Open Scope Z_scope.
Ltac Zify.zify_post_hook ::= idtac.

(** ** Specification *)

(** The same value, except that the members of its objects (Python dictionaries, which have no two
    members of one name) are listed in another order, at every depth. *)
Inductive alike : json -> json -> Prop :=
| AlikeSame v : alike v v
| AlikeArr l l' : Forall2 alike l l' -> alike (JArr l) (JArr l')
| AlikeObj m m1 m' : NoDup (map fst m) -> Permutation m m1 -> Forall2 (fun p q => fst p = fst q /\ alike (snd p) (snd q)) m1 m' ->
    alike (JObj m) (JObj m').

(** Two texts of such values; fractional numbers and half surrogate pairs excluded. *)
Definition same_text (s s' : str) : Prop :=
  exists j j', loads s = Ok j /\ loads s' = Ok j' /\ json_ok j /\ json_ok j' /\ alike j j'.

(** Two attempts to read a file: the same outcome, or two such texts. *)
Definition same_file (a b : res str) : Prop := a = b \/ exists s s', a = Ok s /\ b = Ok s' /\ same_text s s'.

(** ** Proofs *)

Lemma last_member_none m k : last_member m k = None <-> ~ In k (map fst m).
Proof.
  induction m as [|[k' v] m IH]; cbn [last_member map fst In]; [split; [intros _ [] | reflexivity]|].
  destruct (last_member m k) as [w|] eqn:E.
  - split; [discriminate|]. intros H. exfalso. destruct (in_dec (list_eq_dec N.eq_dec) k (map fst m)) as [I|N]; [apply H; right; exact I | apply IH in N; discriminate].
  - destruct (text_eqb k' k) eqn:EK.
    + split; [discriminate|]. intros H. exfalso. apply H. left. apply text_eqb_eq. exact EK.
    + split; [|reflexivity]. intros _ [->|C]; [rewrite (proj2 (text_eqb_eq k k) eq_refl) in EK; discriminate | apply (proj1 IH eq_refl C)].
Qed.

Lemma last_member_in m k v : NoDup (map fst m) -> (last_member m k = Some v <-> In (k, v) m).
Proof.
  induction m as [|[k' w] m IH]; cbn [last_member map fst In]; intros ND; [split; [discriminate | intros []]|]. inversion ND as [|? ? N1 N2]; subst. specialize (IH N2).
  destruct (last_member m k) as [u|] eqn:E.
  - assert (HI : In (k, u) m).
    { destruct (in_dec (list_eq_dec N.eq_dec) k (map fst m)) as [I|N]; [|apply last_member_none in N; congruence].
      apply in_map_iff in I as ([k1 v1] & X & I). cbn in X. subst k1. revert E N2 I. clear. induction m as [|[a b] m IH]; cbn [last_member map fst In]; [discriminate|].
      intros E N I. inversion N as [|? ? M1 M2]; subst. destruct (last_member m k) as [x|] eqn:EX.
      - apply Some_inj in E as ->. right. destruct I as [I|I]; [|apply (IH eq_refl M2 I)]. apply pair_inj in I as [-> ->]. exfalso. apply M1.
        destruct (in_dec (list_eq_dec N.eq_dec) k (map fst m)) as [J|J]; [exact J | apply last_member_none in J; congruence].
      - destruct (text_eqb a k) eqn:EA; [|discriminate]. apply text_eqb_eq in EA as ->. apply Some_inj in E as ->. left. reflexivity. }
    split.
    + intros H. apply Some_inj in H as <-. right. exact HI.
    + intros [H|H]; [apply pair_inj in H as [-> ->]; exfalso; apply N1; apply (in_map fst) in HI; exact HI|]. apply IH. exact H.
  - destruct (text_eqb k' k) eqn:EK.
    + apply text_eqb_eq in EK as ->. split; [intros H; apply Some_inj in H as ->; left; reflexivity|]. intros [H|H]; [apply pair_inj in H as [_ ->]; reflexivity|].
      exfalso. apply N1. apply (in_map fst) in H. exact H.
    + split; [discriminate|]. intros [H|H]; [apply pair_inj in H as [-> _]; rewrite (proj2 (text_eqb_eq k k) eq_refl) in EK; discriminate|]. apply IH in H. discriminate.
Qed.

Lemma last_member_perm m m1 k : NoDup (map fst m) -> Permutation m m1 -> last_member m1 k = last_member m k.
Proof.
  intros ND P. assert (ND1 : NoDup (map fst m1)) by (apply (Permutation_NoDup (Permutation_map fst P) ND)).
  destruct (last_member m k) as [v|] eqn:E.
  - apply (last_member_in _ _ _ ND1). apply (last_member_in _ _ _ ND) in E. apply (Permutation_in _ P E).
  - apply last_member_none. apply last_member_none in E. intros C. apply E. apply (Permutation_in _ (Permutation_sym (Permutation_map fst P)) C).
Qed.

(** What [obj[key]] gives. *)
Definition rel (a b : res json) : Prop := match a, b with Ok v, Ok w => alike v w | Raise e, Raise e' => e = e' | _, _ => False end.

Lemma alike_get j j' k : alike j j' -> rel (get j k) (get j' k).
Proof.
  assert (R : forall a, rel a a) by (intros [v|e]; cbn; [constructor | reflexivity]). intros H. destruct H as [v|l l' F|m m1 m' ND P F]; [apply R | reflexivity|].
  cbn [get]. rewrite <- (last_member_perm m m1 (tx k) ND P). clear ND P m. induction F as [|[a v] [b w] m m' [X Y] F IH]; cbn [last_member]; [reflexivity|]. cbn [fst snd] in X, Y. subst b.
  destruct (last_member m (tx k)) as [u|], (last_member m' (tx k)) as [u'|]; cbn [rel] in IH; try contradiction; try discriminate; [exact IH|].
  destruct (text_eqb a (tx k)); [exact Y | reflexivity].
Qed.

Lemma alike_get_str j j' k : alike j j' -> get_str j' k = get_str j k.
Proof. intros H. apply (alike_get j j' k) in H. unfold get_str. destruct (get j k) as [v|e], (get j' k) as [w|e']; cbn [rel] in H; try contradiction; cbn [bind]; [destruct H; reflexivity | congruence]. Qed.
Lemma alike_get_int j j' k : alike j j' -> get_int j' k = get_int j k.
Proof. intros H. apply (alike_get j j' k) in H. unfold get_int. destruct (get j k) as [v|e], (get j' k) as [w|e']; cbn [rel] in H; try contradiction; cbn [bind]; [destruct H; reflexivity | congruence]. Qed.
Lemma alike_get_bool j j' k : alike j j' -> get_bool j' k = get_bool j k.
Proof. intros H. apply (alike_get j j' k) in H. unfold get_bool. destruct (get j k) as [v|e], (get j' k) as [w|e']; cbn [rel] in H; try contradiction; cbn [bind]; [destruct H; reflexivity | congruence]. Qed.
Lemma alike_get_b64 j j' k : alike j j' -> get_b64 j' k = get_b64 j k.
Proof. intros H. unfold get_b64. rewrite (alike_get_str j j' k H). reflexivity. Qed.

Lemma alike_version j j' : alike j j' -> version_read j' = version_read j.
Proof. intros H. unfold version_read. rewrite (alike_get_int j j' _ H), (alike_get_str j j' _ H), (alike_get_bool j j' _ H). reflexivity. Qed.

Lemma alike_versions l l' : Forall2 alike l l' -> forall m, add_versions m l' = add_versions m l.
Proof. induction 1 as [|v w l l' H F IH]; intros m; cbn [add_versions]; [reflexivity|]. rewrite (alike_version v w H). destruct (version_read v); cbn [bind]; [apply IH | reflexivity]. Qed.

Lemma Forall2_alike_refl l : Forall2 alike l l.
Proof. induction l; constructor; [constructor | assumption]. Qed.

Lemma same_text_sym_meta s s' : same_text s s' -> meta_Read s' = meta_Read s.
Proof.
  intros (j & j' & L & L' & _ & _ & A). unfold meta_Read. rewrite L, L'. cbn [bind]. rewrite !(alike_get_str j j' _ A), (alike_get_bool j j' _ A).
  destruct (get_str j "name"); cbn [bind]; [|reflexivity]. destruct (get_str j "purpose") as [p|]; cbn [bind]; [|reflexivity]. destruct (GetPurpose p); cbn [bind]; [|reflexivity].
  destruct (get_str j "type") as [t|]; cbn [bind]; [|reflexivity]. destruct (GetType t); cbn [bind]; [|reflexivity]. destruct (get_bool j "encrypted"); cbn [bind]; [|reflexivity].
  unfold get_arr. pose proof (alike_get j j' "versions" A) as R. destruct (get j "versions") as [v|e], (get j' "versions") as [w|e']; cbn [rel] in R; try contradiction; cbn [bind]; [|congruence].
  destruct R as [v|l l' F|]; try reflexivity. cbn [bind]. apply (alike_versions l l' F).
Qed.

(** A part of a readable value is readable again. *)
Lemma get_ok j k v : json_ok j -> get j k = Ok v -> json_ok v.
Proof.
  destruct j as [| | | | | |m]; cbn [get]; try discriminate. intros H E. destruct (last_member m (tx k)) as [w|] eqn:L; [|discriminate]. apply Ok_inj in E as <-.
  apply json_ok_obj in H. revert L. induction m as [|[a b] m IH]; cbn [last_member]; [discriminate|]. inversion H as [|? ? [_ X] Y]; subst.
  destruct (last_member m (tx k)) as [u|] eqn:E; [intros Z; apply Some_inj in Z as ->; apply (IH Y eq_refl)|]. destruct (text_eqb a (tx k)); [|discriminate]. intros Z. apply Some_inj in Z as <-. exact X.
Qed.

Lemma same_text_dumps v w : json_ok v -> json_ok w -> alike v w -> same_text (dumps v) (dumps w).
Proof. intros H H' A. exists v, w. rewrite !loads_dumps by assumption. repeat split; assumption. Qed.

Lemma rsapub_alike s s' : same_text s s' -> RsaPublicKey_Read s' = RsaPublicKey_Read s.
Proof. intros (j & j' & L & L' & _ & _ & A). unfold RsaPublicKey_Read. rewrite L, L'. cbn [bind]. rewrite !(alike_get_b64 j j' _ A), (alike_get_int j j' _ A). reflexivity. Qed.
Lemma dsapub_alike s s' : same_text s s' -> DsaPublicKey_Read s' = DsaPublicKey_Read s.
Proof. intros (j & j' & L & L' & _ & _ & A). unfold DsaPublicKey_Read. rewrite L, L'. cbn [bind]. rewrite !(alike_get_b64 j j' _ A), (alike_get_int j j' _ A). reflexivity. Qed.

Lemma get_dumps j j' k : json_ok j -> json_ok j' -> alike j j' ->
  (exists e, get j k = Raise e /\ get j' k = Raise e) \/ (exists v w, get j k = Ok v /\ get j' k = Ok w /\ alike v w /\ same_text (dumps v) (dumps w)).
Proof.
  intros O O' A. pose proof (alike_get j j' k A) as R. destruct (get j k) as [v|e] eqn:E, (get j' k) as [w|e'] eqn:E'; cbn [rel] in R; try contradiction.
  - right. exists v, w. repeat split; try assumption. apply same_text_dumps; [apply (get_ok j k v O E) | apply (get_ok j' k w O' E') | exact R].
  - left. subst e'. exists e. split; reflexivity.
Qed.

(** ** Theorems *)

(** Metadata and keys do not depend on the order of the members in their files. *)
Theorem C89_metadata_members : forall s s', same_text s s' -> meta_Read s' = meta_Read s.
Proof. exact same_text_sym_meta. Qed.
Print Assumptions C89_metadata_members.

Theorem C89_key_members : forall t s s', same_text s s' -> ReadKey t s' = ReadKey t s.
Proof.
  intros t s s' H. unfold ReadKey. f_equal. pose proof H as (j & j' & L & L' & O & O' & A). destruct t.
  - unfold AesKey_Read. rewrite L, L'. cbn [bind]. destruct (get_dumps j j' "hmacKey" O O' A) as [(e & -> & ->)|(v & w & -> & -> & AV & _)]; [reflexivity|]. cbn [bind].
    rewrite !(alike_get_str j j' _ A), (alike_get_int j j' _ A), (alike_get_str v w _ AV), (alike_get_int v w _ AV). reflexivity.
  - unfold HmacKey_Read. rewrite L, L'. cbn [bind]. rewrite (alike_get_str j j' _ A), (alike_get_int j j' _ A). reflexivity.
  - unfold DsaPrivateKey_Read. rewrite L, L'. cbn [bind]. destruct (get_dumps j j' "publicKey" O O' A) as [(e & -> & ->)|(v & w & -> & -> & AV & ST)]; [reflexivity|]. cbn [bind].
    rewrite (dsapub_alike _ _ ST), (alike_get_b64 j j' _ A), (alike_get_int j j' _ A). reflexivity.
  - rewrite (dsapub_alike _ _ H). reflexivity.
  - unfold RsaPrivateKey_Read. rewrite L, L'. cbn [bind]. destruct (get_dumps j j' "publicKey" O O' A) as [(e & -> & ->)|(v & w & -> & -> & AV & ST)]; [reflexivity|]. cbn [bind].
    rewrite (rsapub_alike _ _ ST), !(alike_get_b64 j j' _ A), (alike_get_int j j' _ A). reflexivity.
  - rewrite (rsapub_alike _ _ H). reflexivity.
Qed.
Print Assumptions C89_key_members.

(** Hence the set that opens, or the exception if none does, is the same. *)
Theorem C89_members : forall c rd rd', rd_encrypted rd' = rd_encrypted rd -> same_file (rd_meta rd) (rd_meta rd') ->
  (forall n, same_file (rd_key rd n) (rd_key rd' n)) -> open_keyset c rd' = open_keyset c rd.
Proof.
  intros c rd rd' HE HM HK.
  assert (LK : forall t vs o p vk hk, load_keys rd' t o vs p vk hk = load_keys rd t o vs p vk hk).
  { intros t. induction vs as [|v vs IH]; intros o p vk hk; cbn [load_keys]; [reflexivity|]. destruct (if status_eqb (v_status v) PRIMARY then _ else _); cbn [bind]; [|reflexivity].
    destruct (HK (v_num v)) as [<-|(s & s' & -> & -> & ST)]; cbn [bind].
    - destruct (rd_key rd (v_num v)); cbn [bind]; [|reflexivity]. destruct (ReadKey t _); cbn [bind]; [|reflexivity]. destruct (key_hash_id _); cbn [bind]; [apply IH | reflexivity].
    - rewrite (C89_key_members t s s' ST). destruct (ReadKey t s); cbn [bind]; [|reflexivity]. destruct (key_hash_id _); cbn [bind]; [apply IH | reflexivity]. }
  unfold open_keyset. rewrite HE. destruct HM as [<-|(s & s' & -> & -> & ST)]; cbn [bind].
  - destruct (rd_meta rd); cbn [bind]; [|reflexivity]. destruct (meta_Read _); cbn [bind]; [|reflexivity]. destruct (negb _); [reflexivity|]. destruct (_ && _); [reflexivity|]. rewrite LK. reflexivity.
  - rewrite (C89_metadata_members s s' ST). destruct (meta_Read s); cbn [bind]; [|reflexivity]. destruct (negb _); [reflexivity|]. destruct (_ && _); [reflexivity|]. rewrite LK. reflexivity.
Qed.
Print Assumptions C89_members.

(** A key file as the library may write it under another order of the dictionary, and metadata. *)
Definition hmac_1_other : str := bs "{""size"": 256, ""hmacKeyString"": ""tE41W2GFgxk33RnZHdaE7z-PvALxxVVKdtStfqYMICE""}".
Example C89_members_case : same_text hmac_1 hmac_1_other /\ hmac_1 <> hmac_1_other.
Proof.
  assert (E : exists a b, loads hmac_1 = Ok (JObj [a; b]) /\ loads hmac_1_other = Ok (JObj [b; a]) /\ json_ok (JObj [a; b]) /\ json_ok (JObj [b; a]) /\ fst a <> fst b).
  { do 2 eexists. split; [vm_compute; reflexivity|]. split; [vm_compute; reflexivity|]. split; [|split; [|cbn; discriminate]].
    - apply (jobj_ok [("hmacKeyString"%string, JStr (tx "tE41W2GFgxk33RnZHdaE7z-PvALxxVVKdtStfqYMICE")); ("size"%string, JInt 256)]).
      constructor; [exact (tx_ok "tE41W2GFgxk33RnZHdaE7z-PvALxxVVKdtStfqYMICE")|]. constructor; [exact I | constructor].
    - apply (jobj_ok [("size"%string, JInt 256); ("hmacKeyString"%string, JStr (tx "tE41W2GFgxk33RnZHdaE7z-PvALxxVVKdtStfqYMICE"))]).
      constructor; [exact I|]. constructor; [exact (tx_ok "tE41W2GFgxk33RnZHdaE7z-PvALxxVVKdtStfqYMICE") | constructor]. }
  destruct E as (a & b & E1 & E2 & O1 & O2 & N). split; [|intros C; apply (f_equal (fun s => nth 2 s x00)) in C; vm_compute in C; discriminate].
  exists (JObj [a; b]), (JObj [b; a]). repeat split; try assumption. apply (AlikeObj [a; b] [b; a]).
  - cbn [map]. constructor; [intros [C|[]]; apply N; symmetry; exact C|]. constructor; [intros [] | constructor].
  - apply perm_swap.
  - repeat constructor.
Qed.
