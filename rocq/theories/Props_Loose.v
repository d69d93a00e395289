(** * Props_Loose: property C84 (metadata and key files whose values have other JSON types). *)
From Coq Require Import Strings.String.
From Coq Require Import List ZArith NArith Bool Lia ZifyBool ZifyNat ZifyN.
From Coq.Init Require Import Byte.
From Verif Require Import PyBase PyFacts Base64 Base64Facts Util Json JsonFacts KeyInfo SymKeys AsymKeys Keys KeysFacts ErrFacts KeyData Keyczar KeyczarFacts Meta JsonSpec JsonSpecFacts
  Props_Json Props_Meta Props_More Props_More2 Props_More3 Loose.
Import ListNotations.
Local Open Scope Z_scope.
Ltac Zify.zify_post_hook ::= idtac.

(** ** Specification *)

(** The same version and the same set, seen through the two models. *)
Definition loose_version (v : kversion) : lversion := MkLVersion (JInt (v_num v)) (v_status v) (JBool (v_export v)).
Definition loose_meta (m : metadata) : lmeta :=
  MkLMeta (JStr (m_name m)) (m_purpose m) (m_type m) (JBool (m_encrypted m)) (map loose_version (meta_versions m)).
Definition loose_set (ks : keyset) : lset := MkLSet (loose_meta (ks_meta ks)) (ks_primary ks) (ks_vkeys ks) (ks_hkeys ks).
(** The reader, asked for numbers only. *)
Definition for_numbers (rd : lreader) : reader := MkReader (lrd_meta rd) (fun n => lrd_key rd (JInt n)) (lrd_encrypted rd).

(** A value that can be a key of a dictionary, and the values that count as the same key. *)
Definition can_be_key (v : json) : Prop := (forall l, v <> JArr l) /\ (forall m, v <> JObj m).
Definition same_key (a b : json) : Prop :=
  a = b \/ (exists n, (a = JInt n \/ exists x, a = JBool x /\ n = if x then 1 else 0) /\ (b = JInt n \/ exists y, b = JBool y /\ n = if y then 1 else 0)).

(** The versions that remain: those with no earlier version of the same number. *)
Fixpoint firsts (vs : list lversion) (kept : list lversion) : list lversion -> Prop :=
  match vs with
  | [] => fun out => out = kept
  | v :: vs' => fun out =>
      ((exists w, In w kept /\ same_key (lv_num w) (lv_num v)) /\ firsts vs' kept out) \/
      ((forall w, In w kept -> ~ same_key (lv_num w) (lv_num v)) /\ firsts vs' (kept ++ [v]) out)
  end.

(** The JSON value of a version, and of metadata, for any values that are accepted. *)
Definition any_version (j : json) (v : lversion) : Prop :=
  exists ms st, j = JObj ms /\ in_force ms "versionNumber" (lv_num v) /\ can_be_key (lv_num v) /\
    In (st, lv_status v) status_names /\ in_force ms "status" (JStr (tx st)) /\ in_force ms "exportable" (lv_export v).
Definition any_metadata (j : json) (m : lmeta) : Prop :=
  exists ms pn tn l js vs, j = JObj ms /\ in_force ms "name" (lm_name m) /\
    In (pn, lm_purpose m) purpose_names /\ in_force ms "purpose" (JStr (tx pn)) /\
    In (tn, lm_type m) type_names /\ in_force ms "type" (JStr (tx tn)) /\
    in_force ms "encrypted" (lm_encrypted m) /\ in_force ms "versions" l /\
    (l = JArr js \/ js = [] /\ (l = JStr [] \/ l = JObj [])) /\ Forall2 any_version js vs /\ firsts vs [] (lm_versions m).

(** ** Both models *)

(** [agrees f r l]: if [r] has a value, [l] has the same; if it is refused for another reason than
    the type of a value, so is [l]. *)
Definition agrees {A B} (f : A -> B) (r : res A) (l : res B) : Prop :=
  match r with Ok a => l = Ok (f a) | Raise TypeError => True | Raise e => l = Raise e end.

Lemma agrees_bind {A B C D} (f : A -> B) (g : C -> D) r l k k' :
  agrees f r l -> (forall a, r = Ok a -> agrees g (k a) (k' (f a))) -> agrees g (bind r k) (bind l k').
Proof. unfold agrees. destruct r as [a|e]; intros H HK; [subst l; cbn [bind]; apply HK; reflexivity | cbn [bind]; destruct e; try exact I; subst l; reflexivity]. Qed.
Lemma agrees_refl {A} (r : res A) : agrees (fun a => a) r r.
Proof. destruct r as [a|[]]; reflexivity || exact I. Qed.
Lemma agrees_val {A B} (f : A -> B) a b : b = f a -> agrees f (Ok a) (Ok b).
Proof. intros ->. reflexivity. Qed.
Lemma agrees_str j k : agrees JStr (get_str j k) (get j k).
Proof. unfold get_str. destruct (get j k) as [w|e]; cbn [bind]; [destruct w; reflexivity || exact I | destruct e; reflexivity || exact I]. Qed.
Lemma agrees_int j k : agrees JInt (get_int j k) (get j k).
Proof. unfold get_int. destruct (get j k) as [w|e]; cbn [bind]; [destruct w; reflexivity || exact I | destruct e; reflexivity || exact I]. Qed.
Lemma agrees_bool j k : agrees JBool (get_bool j k) (get j k).
Proof. unfold get_bool. destruct (get j k) as [w|e]; cbn [bind]; [destruct w; reflexivity || exact I | destruct e; reflexivity || exact I]. Qed.
Lemma agrees_arr j k : agrees JArr (get_arr j k) (get j k).
Proof. unfold get_arr. destruct (get j k) as [w|e]; cbn [bind]; [destruct w; reflexivity || exact I | destruct e; reflexivity || exact I]. Qed.
Lemma agrees_b64 j k : agrees (fun s => s) (get_b64 j k) (lget_b64 j k).
Proof. unfold get_b64, lget_b64. apply (agrees_bind JStr); [apply agrees_str|]. intros s _. unfold decoded. cbn [key_text bind]. apply agrees_refl. Qed.

Ltac member := first [apply (agrees_bind JStr); [apply agrees_str|] | apply (agrees_bind JInt); [apply agrees_int|] | apply (agrees_bind JBool); [apply agrees_bool|]
  | apply (agrees_bind (fun s => s)); [first [apply agrees_refl | apply agrees_b64]|]]; intros ? _.

Lemma version_agrees j : agrees loose_version (version_read j) (lversion_read j).
Proof. unfold version_read, lversion_read. member. member. cbn [named]. member. member. reflexivity. Qed.


Lemma adds_agree l : forall m vs, vs = map loose_version (meta_versions m) -> keyed m ->
  agrees loose_meta (add_versions m l) (let* vs := ladds vs l in Ok (MkLMeta (JStr (m_name m)) (m_purpose m) (m_type m) (JBool (m_encrypted m)) vs)).
Proof.
  induction l as [|j l IH]; intros m vs -> K; cbn [add_versions ladds]; [reflexivity|].
  assert (X : forall B C (r : res lversion) (k : lversion -> res B) (h : B -> res C), bind (bind r k) h = bind r (fun v => bind (k v) h)) by (intros B C [?|?] k h; reflexivity).
  rewrite X. apply (agrees_bind loose_version); [apply version_agrees|]. intros v _. unfold ladd. cbn [loose_version lv_num hashable negb].
  assert (E : existsb (fun w => py_eqb (lv_num w) (JInt (v_num v))) (map loose_version (meta_versions m)) = match assoc Z.eqb (m_versions m) (v_num v) with Some _ => true | None => false end).
  { pose proof (assoc_number m (v_num v) K) as A. destruct (assoc Z.eqb (m_versions m) (v_num v)) as [w|].
    - apply existsb_exists. exists (loose_version w). destruct A as [A1 A2]. split; [apply in_map; exact A1|]. cbn. apply Z.eqb_eq. exact A2.
    - destruct (existsb _ _) eqn:E; [|reflexivity]. apply existsb_exists in E as (w & HI & E). apply in_map_iff in HI as (x & <- & HI). exfalso. apply A. exists x. split; [exact HI|]. apply Z.eqb_eq. exact E. }
  rewrite E. pose proof (keyed_add m v K) as K2. unfold meta_AddVersion in K2 |- *. destruct (assoc Z.eqb (m_versions m) (v_num v)) as [w|]; cbn [fst bind] in K2 |- *.
  - apply IH; [reflexivity | exact K2].
  - apply (IH (MkMeta (m_name m) (m_purpose m) (m_type m) (m_encrypted m) (m_versions m ++ [(v_num v, v)]))); [|exact K2]. unfold meta_versions. cbn [m_versions]. rewrite !map_app. reflexivity.
Qed.

Lemma meta_agrees s : agrees loose_meta (meta_Read s) (lmeta_Read s).
Proof.
  unfold meta_Read, lmeta_Read. member. member. member. cbn [named]. member. member. cbn [named]. member. member.
  apply (agrees_bind JArr); [apply agrees_arr|]. intros l _. cbn [items bind]. apply (adds_agree l (MkMeta _ _ _ _ [])); [reflexivity | split; constructor].
Qed.

Lemma rsapub_agrees s : agrees (fun k => k) (RsaPublicKey_Read s) (lrsapub_read s).
Proof. unfold RsaPublicKey_Read, lrsapub_read. repeat member. reflexivity. Qed.
Lemma dsapub_agrees s : agrees (fun k => k) (DsaPublicKey_Read s) (ldsapub_read s).
Proof. unfold DsaPublicKey_Read, ldsapub_read. repeat member. reflexivity. Qed.
Lemma rsapriv_agrees s : agrees (fun k => k) (RsaPrivateKey_Read s) (lrsapriv_read s).
Proof. unfold RsaPrivateKey_Read, lrsapriv_read. member. member. apply (agrees_bind (fun k => k)); [apply rsapub_agrees|]. intros ? _. repeat member. reflexivity. Qed.
Lemma dsapriv_agrees s : agrees (fun k => k) (DsaPrivateKey_Read s) (ldsapriv_read s).
Proof. unfold DsaPrivateKey_Read, ldsapriv_read. member. member. apply (agrees_bind (fun k => k)); [apply dsapub_agrees|]. intros ? _. repeat member. reflexivity. Qed.

Lemma bind_bind {A B C} (r : res A) (k : A -> res B) (h : B -> res C) : bind (bind r k) h = bind r (fun v => bind (k v) h).
Proof. destruct r; reflexivity. Qed.

Lemma hmac_agrees s : agrees (fun p => p) (let* k := (let* k := HmacKey_Read s in Ok (KHmac k)) in with_id k) (lhmac_open s).
Proof.
  unfold HmacKey_Read, lhmac_open, with_id. rewrite !bind_bind. member. rewrite !bind_bind. member. rewrite !bind_bind. member. cbn [bind decoded key_text key_hash_id]. unfold hmac_hash_id, hmac_bytes, decoded. cbn [hk_string HmacKey_new key_text bind size_value number].
  match goal with |- context [Base64WSDecode_u ?u] => generalize (Base64WSDecode_u u) end. intros [b|[]]; reflexivity || exact I.
Qed.
Lemma aes_agrees s : agrees (fun p => p) (let* k := (let* k := AesKey_Read s in Ok (KAes k)) in with_id k) (laes_open s).
Proof.
  unfold AesKey_Read, laes_open, with_id. do 7 (rewrite !bind_bind; member). rewrite !bind_bind. cbn [named]. member.
  unfold AesKey_new, decoded. cbn [key_text bind]. match goal with |- context [match ?m with CBC => _ | _ => _ end] => destruct m end; cbn [bind]; try reflexivity.
  cbn [key_hash_id]. unfold aes_hash_id, aes_bytes, hmac_bytes. cbn [ak_string ak_hmac hk_string HmacKey_new]. 
  match goal with |- context [let* b := Base64WSDecode_u ?u in _] => generalize (Base64WSDecode_u u) end. intros [b|[]]; cbn [bind]; try reflexivity; try exact I.
  match goal with |- context [let* b := Base64WSDecode_u ?u in _] => generalize (Base64WSDecode_u u) end. intros [h|[]]; cbn [bind]; reflexivity || exact I.
Qed.


Lemma a2b_no_KeyError s : forall q b c, a2b_loop s q b c <> Raise KeyError.
Proof.
  induction s as [|a s IH]; intros q b c; cbn [a2b_loop]; [destruct (b =? 0); discriminate|].
  destruct (beqb a "="%byte); [destruct (_ || _); [apply IH | discriminate]|].
  destruct (b64_val a); [|apply IH]. cbv zeta. destruct (8 <=? b + 6); [|apply IH].
  intros H. apply bind_Raise in H as [H|(x & _ & H)]; [exact (IH _ _ _ H) | discriminate H].
Qed.
Lemma b64_no_KeyError u : Base64WSDecode_u u <> Raise KeyError.
Proof.
  unfold Base64WSDecode_u. intros H. apply bind_Raise in H as [H|(x & _ & H)].
  - unfold str_of_text in H. revert H. match goal with |- mapM _ ?l = _ -> _ => generalize l end. intros l. induction l as [|c l IH]; cbn [mapM]; [discriminate|].
    intros H. apply bind_Raise in H as [H|(y & _ & H)]; [destruct (c <? 128)%N; [destruct (Byte.of_N c)|]; discriminate H|]. apply bind_Raise in H as [H|(z & _ & H)]; [exact (IH H) | discriminate H].
  - revert H. unfold decode_stripped. cbv zeta. destruct (_ =? 1); [discriminate|]. unfold a2b_base64. destruct (a2b_loop _ 0 0 0) as [y|e] eqn:E; [discriminate|].
    destruct e; try discriminate. exfalso. exact (a2b_no_KeyError _ _ _ _ E).
Qed.
Lemma id_no_KeyError k : with_id k <> Raise KeyError.
Proof.
  unfold with_id. intros H. apply bind_Raise in H as [H|(a & _ & H)]; [|discriminate H].
  destruct k; cbn [key_hash_id] in H; try discriminate H.
  - unfold aes_hash_id in H. apply bind_Raise in H as [H|(a & _ & H)]; [exact (b64_no_KeyError _ H)|]. apply bind_Raise in H as [H|(b & _ & H)]; [exact (b64_no_KeyError _ H) | discriminate H].
  - unfold hmac_hash_id in H. apply bind_Raise in H as [H|(a & _ & H)]; [exact (b64_no_KeyError _ H) | discriminate H].
Qed.

Lemma key_agrees t s : agrees (fun p => p) (let* k := ReadKey t s in with_id k) (lread_key t s).
Proof.
  unfold ReadKey, lread_key.
  assert (W : forall r : res key, (let* k := key_error_to_keyczar r in with_id k) = key_error_to_keyczar (let* k := r in with_id k)).
  { intros [k|[]]; try reflexivity. cbn [key_error_to_keyczar bind]. pose proof (id_no_KeyError k) as N. destruct (with_id k) as [x|[]]; try reflexivity. destruct (N eq_refl). }
  rewrite W. assert (K : forall (a b : res (key * str)), agrees (fun p => p) a b -> agrees (fun p => p) (key_error_to_keyczar a) (key_error_to_keyczar b)).
  { intros [p|[]] b H; cbn in H |- *; try exact I; subst b; reflexivity. }
  apply K. destruct t; [apply aes_agrees | apply hmac_agrees | | | |]; rewrite bind_bind; (apply (agrees_bind (fun k => k)); [|intros k _; apply agrees_refl]);
    first [apply dsapriv_agrees | apply rsapriv_agrees | apply dsapub_agrees | apply rsapub_agrees].
Qed.

Lemma load_agrees rd t vs : forall o p vk hk, agrees (fun x => x) (load_keys (for_numbers rd) t o vs p vk hk) (lload rd t o (map loose_version vs) p vk hk).
Proof.
  induction vs as [|v vs IH]; intros o p vk hk; cbn [load_keys lload map]; [reflexivity|]. cbn [loose_version lv_status lv_num].
  member. cbn [for_numbers rd_key]. member.
  assert (X : forall (r : res key) (f : key -> str -> res (option nat * list (nat * key) * list (str * key))), (let* k := r in let* h := key_hash_id k in f k h) = (let* p := (let* k := r in with_id k) in let (k, h) := p in f k h)).
  { intros [k|e] f; [|reflexivity]. cbn [bind]. unfold with_id. destruct (key_hash_id k); reflexivity. }
  rewrite X. apply (agrees_bind (fun p => p)); [apply key_agrees|]. intros [k h] _. apply IH.
Qed.

Lemma combine_deref (l : list (Z * kversion)) : forall (pre : list kversion),
  map (fun p => (fst p, deref (pre ++ map snd l) (snd p))) (combine (map fst l) (seq (List.length pre) (List.length l))) = l.
Proof.
  induction l as [|[n v] l IH]; intros pre; cbn [map List.length seq combine]; [reflexivity|]. cbn [fst snd]. f_equal.
  - f_equal. unfold deref. rewrite app_nth2 by lia. rewrite Nat.sub_diag. reflexivity.
  - specialize (IH (pre ++ [v])). rewrite app_length in IH. cbn [List.length] in IH. rewrite Nat.add_1_r in IH. rewrite <- app_assoc in IH. exact IH.
Qed.

Lemma open_agrees c rd : agrees loose_set (open_keyset c (for_numbers rd)) (lopen c rd).
Proof.
  unfold open_keyset, lopen. cbn [for_numbers rd_meta rd_encrypted]. member. apply (agrees_bind loose_meta); [apply meta_agrees|]. intros m _.
  cbn [loose_meta lm_purpose lm_encrypted truth lm_type lm_versions]. destruct (negb _); [reflexivity|]. destruct (_ && _); [reflexivity|].
  apply (agrees_bind (fun x => x)); [apply load_agrees|]. intros [[p vk] hk] _. cbn [agrees]. f_equal. unfold loose_set, ks_meta. cbn [ks_name ks_purpose ks_type ks_encrypted ks_objs ks_mvers ks_vkeys ks_hkeys ks_primary].
  f_equal. unfold loose_meta at 1. unfold loose_meta. f_equal. cbn [m_versions]. unfold meta_versions at 2. cbn [m_versions]. unfold meta_versions. rewrite map_length.
  pose proof (combine_deref (m_versions m) []) as C. cbn [app List.length] in C. rewrite C. reflexivity.
Qed.

(** ** Metadata *)

Lemma hashable_iff v : hashable v = true <-> can_be_key v.
Proof. unfold can_be_key. destruct v; cbn; split; try discriminate; try (intros _; split; intros; discriminate); try reflexivity; intros [A B]; [destruct (A l eq_refl) | destruct (B m eq_refl)]. Qed.
Lemma number_iff v n : number v = Some n <-> v = JInt n \/ exists x, v = JBool x /\ n = if x then 1 else 0.
Proof.
  destruct v as [|b|z|f|u|l|m]; cbn; try (split; [discriminate | intros [H|(x & H & _)]; discriminate H]).
  - destruct b; (split; [intros H; apply Some_inj in H as <-; right; eexists; split; reflexivity | intros [H|(x & H & ->)]; [discriminate H | injection H as <-; reflexivity]]).
  - split; [intros H; apply Some_inj in H as <-; left; reflexivity | intros [H|(x & H & _)]; [injection H as <-; reflexivity | discriminate H]].
Qed.
Lemma py_eqb_iff a b : can_be_key a -> can_be_key b -> (py_eqb a b = true <-> same_key a b).
Proof.
  intros HA HB. apply hashable_iff in HA, HB. unfold py_eqb, same_key. split.
  - destruct (number a) as [x|] eqn:EA, (number b) as [y|] eqn:EB; intros H; try discriminate H.
    + apply Z.eqb_eq in H as <-. right. exists x. split; apply number_iff; assumption.
    + left. destruct a, b; try discriminate H; try reflexivity; f_equal; [apply str_eqb_eq | apply text_eqb_eq]; exact H.
  - intros [<-|(n & H1 & H2)].
    + destruct (number a) eqn:EN; [apply Z.eqb_refl|]. destruct a as [|[]| | | | |]; try discriminate HA; try discriminate EN; try reflexivity; [apply str_eqb_eq | apply text_eqb_eq]; reflexivity.
    + apply number_iff in H1, H2. rewrite H1, H2. apply Z.eqb_refl.
Qed.

Lemma lversion_iff j v : (lversion_read j = Ok v /\ hashable (lv_num v) = true) <-> any_version j v.
Proof.
  unfold lversion_read, any_version. split.
  - intros [H HH]. apply bind_Ok in H as (n & H1 & H). apply bind_Ok in H as (x & H2 & H). apply bind_Ok in H as (st & H3 & H). apply bind_Ok in H as (e & H4 & H). apply Ok_inj in H as <-.
    apply get_iff in H1 as (ms & -> & H1). apply get_obj in H2, H4. cbn [lv_num lv_status lv_export] in *. destruct x; try discriminate H3. cbn [named] in H3. apply (proj1 (proj2 C64_names)) in H3 as (nm & H3 & ->).
    exists ms, nm. apply hashable_iff in HH. repeat (split; [first [reflexivity | assumption]|]). assumption.
  - intros (ms & st & -> & H1 & HK & H3 & H2 & H4). apply get_obj in H1, H2, H4. apply hashable_iff in HK. split; [|exact HK]. rewrite H1, H2. cbn [bind named].
    assert (E : GetStatus (tx st) = Ok (lv_status v)) by (apply (proj1 (proj2 C64_names)); exists st; split; [exact H3 | reflexivity]). rewrite E. cbn [bind]. rewrite H4. destruct v; reflexivity.
Qed.

Lemma ladds_iff js : forall kept out, Forall (fun w => can_be_key (lv_num w)) kept ->
  (ladds kept js = Ok out <-> exists vs, Forall2 any_version js vs /\ firsts vs kept out).
Proof.
  induction js as [|j js IH]; intros kept out HK; cbn [ladds].
  - split; [intros H; apply Ok_inj in H as <-; exists []; split; [constructor | reflexivity] | intros (vs & H1 & H2); inversion H1; subst vs; cbn in H2; subst; reflexivity].
  - assert (D : forall v, can_be_key (lv_num v) -> existsb (fun w => py_eqb (lv_num w) (lv_num v)) kept = true <-> exists w, In w kept /\ same_key (lv_num w) (lv_num v)).
    { intros v HV. rewrite existsb_exists. split; intros (w & HI & H); exists w; (split; [exact HI|]); apply (py_eqb_iff _ _ (proj1 (Forall_forall _ _) HK w HI) HV); exact H. }
    split.
    + intros H. apply bind_Ok in H as (v & H1 & H). apply bind_Ok in H as (k2 & H2 & H). unfold ladd in H2. destruct (hashable (lv_num v)) eqn:EH; [|discriminate H2]. cbn [negb] in H2.
      pose proof (proj1 (lversion_iff j v) (conj H1 EH)) as HV. apply hashable_iff in EH. pose proof (D v EH) as DV. destruct (existsb _ kept) eqn:EX; apply Ok_inj in H2 as <-.
      * apply (IH kept out HK) in H as (vs & F & H). exists (v :: vs). split; [constructor; assumption|]. cbn [firsts]. left. split; [apply DV; reflexivity | exact H].
      * apply (IH (kept ++ [v]) out) in H as (vs & F & H); [|apply Forall_app; split; [exact HK | constructor; [exact EH | constructor]]].
        exists (v :: vs). split; [constructor; assumption|]. cbn [firsts]. right. split; [|exact H]. intros w HI HS. assert (X : false = true) by (apply DV; exists w; split; assumption). discriminate X.
    + intros (vs & F & H). inversion F as [|? v ? vs' HV F']; subst. apply lversion_iff in HV as [H1 EH]. rewrite H1. cbn [bind]. unfold ladd. rewrite EH. cbn [negb]. apply hashable_iff in EH. pose proof (D v EH) as DV. cbn [firsts] in H.
      destruct (existsb _ kept) eqn:EX; cbn [bind].
      * apply (IH kept out HK). exists vs'. split; [exact F'|]. destruct H as [[_ H]|[N _]]; [exact H|]. exfalso. destruct (proj1 DV eq_refl) as (w & HI & HS). exact (N w HI HS).
      * apply (IH (kept ++ [v]) out); [apply Forall_app; split; [exact HK | constructor; [exact EH | constructor]]|]. exists vs'. split; [exact F'|]. destruct H as [[X _]|[_ H]]; [|exact H]. apply DV in X. discriminate X.
Qed.

Lemma items_no_versions v l out : items v = Ok l -> (forall js, v <> JArr js) -> ladds [] l = Ok out -> l = [] /\ (v = JStr [] \/ v = JObj []).
Proof.
  intros H N HL. destruct v as [| | | |u|js|m]; try discriminate H; cbn [items] in H; apply Ok_inj in H as <-.
  - destruct u as [|c u]; [split; [reflexivity | left; reflexivity]|]. discriminate HL.
  - destruct (N js eq_refl).
  - destruct m as [|p m]; [split; [reflexivity | right; reflexivity]|]. discriminate HL.
Qed.

(** ** C84 *)

(** Documented types: the set opens as Keyczar.v says, or is refused with the same error; only
    where that model refuses a value because of its type can Python do otherwise. *)
Theorem C84_documented : forall c rd,
  (forall ks, open_keyset c (for_numbers rd) = Ok ks -> lopen c rd = Ok (loose_set ks)) /\
  (forall e, e <> TypeError -> open_keyset c (for_numbers rd) = Raise e -> lopen c rd = Raise e).
Proof.
  intros c rd. pose proof (open_agrees c rd) as H. split.
  - intros ks E. rewrite E in H. exact H.
  - intros e N E. rewrite E in H. destruct e; try exact H. destruct (N eq_refl).
Qed.
Print Assumptions C84_documented.

(** Exactly these texts are read as metadata, and as this. *)
Theorem C84_metadata : forall s m, lmeta_Read s = Ok m <-> exists j, json_text s j /\ any_metadata j m.
Proof.
  intros s m. unfold lmeta_Read, any_metadata. split.
  - intros H. apply bind_Ok in H as (j & HJ & H). exists j. split; [apply loads_grammar, HJ|]. apply bind_Ok in H as (n & H1 & H). apply bind_Ok in H as (p & H2 & H). apply bind_Ok in H as (p' & H3 & H). apply bind_Ok in H as (t & H4 & H). apply bind_Ok in H as (t' & H5 & H).
    apply bind_Ok in H as (e & H6 & H). apply bind_Ok in H as (l & H7 & H). apply bind_Ok in H as (js & H8 & H). apply bind_Ok in H as (out & H9 & H). apply Ok_inj in H as <-.
    apply get_iff in H1 as (ms & -> & H1). apply get_obj in H2, H4, H6, H7. destruct p; try discriminate H3. destruct t; try discriminate H5. cbn [named] in H3, H5.
    apply (proj1 (proj2 (proj2 C64_names))) in H3 as (a & H3 & ->). apply (proj1 C64_names) in H5 as (b & H5 & ->). cbn [lm_name lm_purpose lm_type lm_encrypted lm_versions].
    assert (Q : l = JArr js \/ js = [] /\ (l = JStr [] \/ l = JObj [])).
    { destruct l as [| | | | |js'|]; try (right; apply (items_no_versions _ _ out H8); [intros ? X; discriminate X | exact H9]). left. cbn [items] in H8. apply Ok_inj in H8 as ->. reflexivity. }
    apply ladds_iff in H9 as (vs & F & HF); [|constructor]. exists ms, a, b, l, js, vs. repeat (split; [first [reflexivity | assumption]|]). assumption.
  - intros (j & HJ & ms & a & b & l & js & vs & -> & H1 & H3 & H2 & H5 & H4 & H6 & H7 & Q & F & HF). apply loads_grammar in HJ. rewrite HJ. cbn [bind]. apply get_obj in H1, H2, H4, H6, H7. rewrite H1. cbn [bind]. rewrite H2. cbn [bind named].
    assert (E : GetPurpose (tx a) = Ok (lm_purpose m)) by (apply (proj1 (proj2 (proj2 C64_names))); exists a; split; [exact H3 | reflexivity]). rewrite E. cbn [bind]. rewrite H4. cbn [bind named].
    assert (E2 : GetType (tx b) = Ok (lm_type m)) by (apply (proj1 C64_names); exists b; split; [exact H5 | reflexivity]). rewrite E2. cbn [bind]. rewrite H6. cbn [bind]. rewrite H7. cbn [bind].
    assert (I : items l = Ok js) by (destruct Q as [->|(-> & [->| ->])]; reflexivity). rewrite I. cbn [bind].
    assert (L : ladds [] js = Ok (lm_versions m)) by (apply ladds_iff; [constructor | exists vs; split; assumption]). rewrite L. destruct m; reflexivity.
Qed.
Print Assumptions C84_metadata.

(** Any other JSON text is refused with KeyError, TypeError or KeyczarError; a text that is no JSON
    with ValueError or an error of decoding its characters (C74). *)
Theorem C84_metadata_refused : forall s j e, json_text s j -> lmeta_Read s = Raise e -> e = KeyError \/ e = TypeError \/ e = KeyczarError.
Proof.
  intros s j e HJ H. apply loads_grammar in HJ. unfold lmeta_Read in H. rewrite HJ in H. cbn [bind] in H.
  assert (NE : forall A (f : text -> res A) v x, (forall u y, f u = Raise y -> y = KeyczarError) -> named f v = Raise x -> member_error x).
  { intros A f v x HF HN. destruct v; cbn [named] in HN; try (apply Raise_inj in HN as <-; right; auto; fail). right. right. exact (HF _ _ HN). }
  assert (VE : forall v x, lversion_read v = Raise x -> member_error x).
  { intros v x HV. unfold lversion_read in HV. apply bind_Raise in HV as [HV|(a & _ & HV)]; [exact (get_error_any _ _ _ HV)|]. apply bind_Raise in HV as [HV|(b & _ & HV)]; [exact (get_error_any _ _ _ HV)|].
    apply bind_Raise in HV as [HV|(d & _ & HV)]; [refine (NE _ _ _ _ _ HV); intros u y; apply by_name_error|]. apply bind_Raise in HV as [HV|(f & _ & HV)]; [exact (get_error_any _ _ _ HV) | discriminate HV]. }
  assert (LE : forall l vs x, ladds vs l = Raise x -> member_error x).
  { induction l as [|v l IH]; intros vs x HL; cbn [ladds] in HL; [discriminate HL|]. apply bind_Raise in HL as [HL|(w & _ & HL)]; [exact (VE _ _ HL)|]. apply bind_Raise in HL as [HL|(vs2 & _ & HL)]; [|exact (IH _ _ HL)].
    unfold ladd in HL. destruct (negb _); [apply Raise_inj in HL as <-; right; left; reflexivity|]. destruct (existsb _ _); discriminate HL. }
  apply bind_Raise in H as [H|(n & _ & H)]; [exact (get_error_any _ _ _ H)|]. apply bind_Raise in H as [H|(p & _ & H)]; [exact (get_error_any _ _ _ H)|]. apply bind_Raise in H as [H|(p' & _ & H)]; [refine (NE _ _ _ _ _ H); intros u y; apply by_name_error|].
  apply bind_Raise in H as [H|(t & _ & H)]; [exact (get_error_any _ _ _ H)|]. apply bind_Raise in H as [H|(t' & _ & H)]; [refine (NE _ _ _ _ _ H); intros u y; apply by_name_error|].
  apply bind_Raise in H as [H|(en & _ & H)]; [exact (get_error_any _ _ _ H)|]. apply bind_Raise in H as [H|(vs & _ & H)]; [exact (get_error_any _ _ _ H)|].
  apply bind_Raise in H as [H|(l & _ & H)]; [destruct vs; cbn [items] in H; try discriminate H; apply Raise_inj in H as <-; right; left; reflexivity|].
  apply bind_Raise in H as [H|(out & _ & H)]; [exact (LE _ _ _ H) | discriminate H].
Qed.
Print Assumptions C84_metadata_refused.

(** The values that say "not encrypted": null, false, zero, and what is empty.  A number with a
    fraction or an exponent is zero if all digits before the exponent are. *)
Definition says_no (v : json) : Prop :=
  v = JNull \/ v = JBool false \/ v = JInt 0 \/ v = JStr [] \/ v = JArr [] \/ v = JObj [] \/
  exists m x, v = JFloat (m ++ x) /\ (x = [] \/ exists y, x = "e"%byte :: y \/ x = "E"%byte :: y) /\ Forall (fun c => ~ In c (bs "123456789NIeE")) m.

Lemma nonzero_digit c : ((49 <=? ord c) && (ord c <=? 57) || beqb c "N"%byte || beqb c "I"%byte) || (beqb c "e"%byte || beqb c "E"%byte) = true <-> In c (bs "123456789NIeE").
Proof. destruct c; cbn; intuition discriminate. Qed.
Lemma mantissa_split s : exists x, s = mantissa s ++ x /\ (x = [] \/ exists y, x = "e"%byte :: y \/ x = "E"%byte :: y) /\ Forall (fun c => c <> "e"%byte /\ c <> "E"%byte) (mantissa s).
Proof.
  induction s as [|c s IH]; [exists []; repeat split; [left; reflexivity | constructor]|]. cbn [mantissa]. destruct (beqb c "e"%byte || beqb c "E"%byte) eqn:E.
  - exists (c :: s). split; [reflexivity|]. split; [|constructor]. right. exists s. apply orb_true_iff in E as [E|E]; apply beqb_eq in E as ->; tauto.
  - destruct IH as (x & EX & HX & F). exists x. split; [cbn; f_equal; exact EX|]. split; [exact HX|]. constructor; [|exact F]. apply orb_false_iff in E as [E1 E2]. split; intros ->; [discriminate E1 | discriminate E2].
Qed.
Lemma mantissa_of m x : (x = [] \/ exists y, x = "e"%byte :: y \/ x = "E"%byte :: y) -> Forall (fun c => c <> "e"%byte /\ c <> "E"%byte) m -> mantissa (m ++ x) = m.
Proof.
  intros HX. induction m as [|c m IH]; intros F; cbn [app mantissa].
  - destruct HX as [->|(y & [->| ->])]; reflexivity.
  - inversion_clear F as [|? ? [F1 F2] F3]. destruct (beqb c "e"%byte) eqn:E1; [apply beqb_eq in E1; contradiction|]. destruct (beqb c "E"%byte) eqn:E2; [apply beqb_eq in E2; contradiction|]. cbn [orb]. f_equal. exact (IH F3).
Qed.
Lemma truth_iff v : truth v = false <-> says_no v.
Proof.
  unfold says_no. split.
  - intros E. destruct v as [|b|z|f|u|l|o]; cbn [truth] in E.
    + left. reflexivity.
    + subst b. right. left. reflexivity.
    + right. right. left. f_equal. apply negb_false_iff, Z.eqb_eq in E. exact E.
    + do 6 right. destruct (mantissa_split f) as (x & EX & HX & F). exists (mantissa f), x. split; [f_equal; exact EX|]. split; [exact HX|]. apply Forall_forall. intros c HI HC. apply nonzero_digit, orb_true_iff in HC as [HC|HC].
      * rewrite <- not_true_iff_false in E. apply E. apply existsb_exists. exists c. split; assumption.
      * rewrite Forall_forall in F. destruct (F c HI) as [F1 F2]. apply orb_true_iff in HC as [HC|HC]; apply beqb_eq in HC; contradiction.
    + destruct u; [|discriminate E]. do 3 right. left. reflexivity.
    + destruct l; [|discriminate E]. do 4 right. left. reflexivity.
    + destruct o; [|discriminate E]. do 5 right. left. reflexivity.
  - intros [->|[->|[->|[->|[->|[->|(m & x & -> & HX & F)]]]]]]; try reflexivity. cbn [truth]. rewrite Forall_forall in F. rewrite mantissa_of; [|exact HX|].
    + apply not_true_iff_false. intros C. apply existsb_exists in C as (c & HI & C). apply (F c HI), nonzero_digit. rewrite C. reflexivity.
    + apply Forall_forall. intros c HI. split; intros ->; apply (F _ HI); apply nonzero_digit; reflexivity.
Qed.

(** A reader that does not decrypt opens a key set only if its metadata says "not encrypted" in
    one of these ways, and then as any reader would; any other value of "encrypted" is refused. *)
Theorem C84_encrypted : forall c rd,
  (forall ks, lrd_encrypted rd = false -> lopen c rd = Ok ks -> says_no (lm_encrypted (ls_meta ks))) /\
  (forall s m, lrd_meta rd = Ok s -> lmeta_Read s = Ok m -> lrd_encrypted rd = false -> ~ says_no (lm_encrypted m) -> lopen c rd = Raise KeyczarError) /\
  (forall s m, lrd_meta rd = Ok s -> lmeta_Read s = Ok m -> says_no (lm_encrypted m) -> lopen c rd = lopen c (MkLReader (lrd_meta rd) (lrd_key rd) true)).
Proof.
  intros c rd. split; [|split].
  - intros ks HR H. unfold lopen in H. apply bind_Ok in H as (s & _ & H). apply bind_Ok in H as (m & _ & H). destruct (negb _); [discriminate H|]. rewrite HR in H. cbn [negb] in H. rewrite andb_true_r in H.
    destruct (truth (lm_encrypted m)) eqn:E; [discriminate H|]. apply bind_Ok in H as ([[p vk] hk] & _ & H). apply Ok_inj in H as <-. cbn [ls_meta]. apply truth_iff. exact E.
  - intros s m E1 E2 HR HN. unfold lopen. rewrite E1. cbn [bind]. rewrite E2. cbn [bind]. destruct (negb (IsAcceptablePurpose c (lm_purpose m))); [reflexivity|]. rewrite HR. destruct (truth (lm_encrypted m)) eqn:E; [reflexivity|]. exfalso. apply HN, truth_iff. exact E.
  - intros s m E1 E2 HN. apply truth_iff in HN. unfold lopen. change (lrd_meta (MkLReader (lrd_meta rd) (lrd_key rd) true)) with (lrd_meta rd). rewrite E1. cbn [bind]. rewrite E2. cbn [bind]. rewrite HN. cbn [andb].
    assert (L : forall t vs i p vk hk, lload rd t i vs p vk hk = lload (MkLReader (Ok s) (lrd_key rd) true) t i vs p vk hk).
    { intros t vs. induction vs as [|v vs IH]; intros i p vk hk; [reflexivity|]. cbn [lload]. change (lrd_key (MkLReader (Ok s) (lrd_key rd) true)) with (lrd_key rd).
      destruct (if status_eqb (lv_status v) PRIMARY then match p with Some _ => Raise KeyczarError | None => Ok (Some i) end else Ok p) as [p'|x]; [|reflexivity]. cbn [bind].
      destruct (lrd_key rd (lv_num v)) as [u|x]; [|reflexivity]. cbn [bind]. destruct (lread_key t u) as [[k h]|x]; [|reflexivity]. cbn [bind]. apply IH. }
    rewrite L. reflexivity.
Qed.
Print Assumptions C84_encrypted.

(** The key materials a key file must have as strings, wherever they are. *)
Definition material (t : ktype) : list (list string * string) :=
  match t with
  | AES => [([], "aesKeyString"); (["hmacKey"], "hmacKeyString")]
  | HMAC_SHA1 => [([], "hmacKeyString")]
  | DSA_PUB => [([], "y"); ([], "p"); ([], "g"); ([], "q")]
  | DSA_PRIV => [([], "x")]
  | RSA_PUB => [([], "modulus"); ([], "publicExponent")]
  | RSA_PRIV => [([], "privateExponent"); ([], "primeP"); ([], "primeQ"); ([], "primeExponentP"); ([], "primeExponentQ"); ([], "crtCoefficient")]
  end%string.
(** The value found under these names. *)
Fixpoint found (j : json) (path : list string) (w : json) : Prop :=
  match path with
  | [] => j = w
  | n :: path' => exists ms x, j = JObj ms /\ in_force ms n x /\ found x path' w
  end.

Lemma lb64_str j n b : lget_b64 j n = Ok b -> exists ms u, j = JObj ms /\ in_force ms n (JStr u).
Proof.
  unfold lget_b64, decoded. intros H. apply bind_Ok in H as (w & H1 & H). apply bind_Ok in H as (u & H2 & _). apply get_iff in H1 as (ms & -> & H1).
  destruct w; try discriminate H2. cbn in H2. apply Ok_inj in H2 as ->. exists ms, u. split; [reflexivity | exact H1].
Qed.
Lemma decoded_str w b : decoded w = Ok b -> exists u, w = JStr u.
Proof. unfold decoded. intros H. apply bind_Ok in H as (u & H2 & _). destruct w; try discriminate H2. exists s. reflexivity. Qed.

(** A key that is read has the type asked for, a size of that type and the identifier of its
    material, whatever the JSON types in its file; and each piece of its material is a string
    there. *)
Theorem C84_keys : forall t s k h, lread_key t s = Ok (k, h) ->
  key_type k = t /\ In (key_size k) (sizes t) /\ key_hash_id k = Ok h /\
  exists j, json_text s j /\ forall path name, In (path, name) (material t) -> exists u, found j (path ++ [name]) (JStr u).
Proof.
  intros t s k h H. assert (V : forall t n, In (set_size t n) (sizes t)).
  { intros t' n. pose proof (set_size_is_valid t' n) as V. unfold IsValidSize in V. apply existsb_exists in V as (x & HI & V). apply Z.eqb_eq in V as ->. exact HI. }
  assert (M : forall j l, (forall p n, In (p, n) l -> p = [] /\ exists b, lget_b64 j n = Ok b) -> forall p n, In (p, n) l -> exists u, found j (p ++ [n]) (JStr u)).
  { intros j l HB p n HI. destruct (HB p n HI) as (-> & b & B). apply lb64_str in B as (ms & u & -> & B). exists u. cbn [found app]. exists ms, (JStr u). split; [reflexivity|]. split; [exact B | reflexivity]. }
  unfold lread_key in H. apply keyczar_Ok in H. destruct t.
  - unfold laes_open in H. apply bind_Ok in H as (j & HJ & H). apply bind_Ok in H as (hv & H1 & H). apply bind_Ok in H as (ks & H2 & H). apply bind_Ok in H as (hs & H3 & H). apply bind_Ok in H as (z1 & _ & H). apply bind_Ok in H as (z2 & _ & H). apply bind_Ok in H as (mn & _ & H). apply bind_Ok in H as (m & _ & H).
    apply bind_Ok in H as (? & _ & H). apply bind_Ok in H as (b & H4 & H). apply bind_Ok in H as (b2 & H5 & H). destruct (decoded_str _ _ H4) as (u & ->). destruct (decoded_str _ _ H5) as (u2 & ->). cbn [key_text bind] in H. apply Ok_inj, pair_inj in H as [<- <-].
    split; [reflexivity|]. split; [apply V|]. split.
    + cbn [key_hash_id]. unfold aes_hash_id, aes_bytes, hmac_bytes. cbn [ak_string ak_hmac hk_string HmacKey_new]. unfold decoded in H4, H5. cbn [key_text bind] in H4, H5. rewrite H4. cbn [bind]. rewrite H5. reflexivity.
    + exists j. split; [apply loads_grammar, HJ|]. apply get_iff in H1 as (ms & -> & H1). apply get_obj in H2. apply get_iff in H3 as (ms2 & -> & H3).
      intros path name [HI|[HI|[]]]; apply pair_inj in HI as [<- <-].
      * exists u. exists ms, (JStr u). split; [reflexivity|]. split; [exact H2 | reflexivity].
      * exists u2. exists ms, (JObj ms2). split; [reflexivity|]. split; [exact H1|]. exists ms2, (JStr u2). split; [reflexivity|]. split; [exact H3 | reflexivity].
  - unfold lhmac_open in H. apply bind_Ok in H as (j & HJ & H). apply bind_Ok in H as (ks & H2 & H). apply bind_Ok in H as (z1 & _ & H). apply bind_Ok in H as (b & H4 & H). destruct (decoded_str _ _ H4) as (u & ->). cbn [key_text bind] in H. apply Ok_inj, pair_inj in H as [<- <-].
    split; [reflexivity|]. split; [apply V|]. split.
    + cbn [key_hash_id]. unfold hmac_hash_id, hmac_bytes. cbn [hk_string HmacKey_new]. unfold decoded in H4. cbn [key_text bind] in H4. rewrite H4. reflexivity.
    + exists j. split; [apply loads_grammar, HJ|]. apply get_iff in H2 as (ms & -> & H2). intros path name [HI|[]]; apply pair_inj in HI as [<- <-]. exists u. exists ms, (JStr u). split; [reflexivity|]. split; [exact H2 | reflexivity].
  - apply bind_Ok in H as (x & H & HW). unfold with_id in HW. apply bind_Ok in HW as (h' & HW & E). apply Ok_inj, pair_inj in E as [<- <-]. unfold ldsapriv_read in H. apply bind_Ok in H as (j & HJ & H). apply bind_Ok in H as (pk & _ & H). apply bind_Ok in H as (pub & _ & H). apply bind_Ok in H as (b & HB & H). apply bind_Ok in H as (z & _ & H). apply Ok_inj in H as <-.
    split; [reflexivity|]. split; [apply V|]. split; [exact HW|]. exists j. split; [apply loads_grammar, HJ|]. apply M. intros p n HI. cbn in HI. destruct HI as [HI|[]]; apply pair_inj in HI as [<- <-]; (split; [reflexivity|]); eexists; eassumption.
  - apply bind_Ok in H as (x & H & HW). unfold with_id in HW. apply bind_Ok in HW as (h' & HW & E). apply Ok_inj, pair_inj in E as [<- <-]. unfold ldsapub_read in H. apply bind_Ok in H as (j & HJ & H). do 4 (let b := fresh "b" in let B := fresh "B" in apply bind_Ok in H as (b & B & H)). apply bind_Ok in H as (z & _ & H). apply Ok_inj in H as <-.
    split; [reflexivity|]. split; [apply V|]. split; [exact HW|]. exists j. split; [apply loads_grammar, HJ|]. apply M. intros p n HI. cbn in HI. repeat (destruct HI as [HI|HI]; [apply pair_inj in HI as [<- <-]; (split; [reflexivity|]); eexists; eassumption|]). destruct HI.
  - apply bind_Ok in H as (x & H & HW). unfold with_id in HW. apply bind_Ok in HW as (h' & HW & E). apply Ok_inj, pair_inj in E as [<- <-]. unfold lrsapriv_read in H. apply bind_Ok in H as (j & HJ & H). apply bind_Ok in H as (pk & _ & H). apply bind_Ok in H as (pub & _ & H). do 6 (let b := fresh "b" in let B := fresh "B" in apply bind_Ok in H as (b & B & H)). apply bind_Ok in H as (z & _ & H). apply Ok_inj in H as <-.
    split; [reflexivity|]. split; [apply V|]. split; [exact HW|]. exists j. split; [apply loads_grammar, HJ|]. apply M. intros p n HI. cbn in HI. repeat (destruct HI as [HI|HI]; [apply pair_inj in HI as [<- <-]; (split; [reflexivity|]); eexists; eassumption|]). destruct HI.
  - apply bind_Ok in H as (x & H & HW). unfold with_id in HW. apply bind_Ok in HW as (h' & HW & E). apply Ok_inj, pair_inj in E as [<- <-]. unfold lrsapub_read in H. apply bind_Ok in H as (j & HJ & H). do 2 (let b := fresh "b" in let B := fresh "B" in apply bind_Ok in H as (b & B & H)). apply bind_Ok in H as (z & _ & H). apply Ok_inj in H as <-.
    split; [reflexivity|]. split; [apply V|]. split; [exact HW|]. exists j. split; [apply loads_grammar, HJ|]. apply M. intros p n HI. cbn in HI. repeat (destruct HI as [HI|HI]; [apply pair_inj in HI as [<- <-]; (split; [reflexivity|]); eexists; eassumption|]). destruct HI.
Qed.
Print Assumptions C84_keys.

(** A file of this name in the location. *)
Definition inside (location name : str) : str :=
  match location with
  | [] => name
  | _ => if byte_eq_dec (last location "/"%byte) "/"%byte then location ++ name else location ++ "/"%byte :: name
  end.

Lemma rev_last (l : str) : match rev l with c :: _ => beqb c "/"%byte | [] => false end = match l with [] => false | _ => beqb (last l "/"%byte) "/"%byte end.
Proof.
  destruct l as [|a l] using rev_ind; [reflexivity|]. rewrite rev_app_distr, last_last. destruct l; reflexivity.
Qed.
Lemma join_inside location name : (forall c r, name = c :: r -> c <> "/"%byte) -> name <> [] -> join location name = inside location name.
Proof.
  intros N NE. unfold join, inside. destruct name as [|c r]; [destruct (NE eq_refl)|]. assert (E : beqb c "/"%byte = false) by (destruct (beqb c "/"%byte) eqn:E; [apply beqb_eq in E; destruct (N c r eq_refl E) | reflexivity]). rewrite E.
  destruct location as [|a l]; [reflexivity|]. rewrite rev_last. destruct (byte_eq_dec _ _) as [H|H].
  - rewrite H. reflexivity.
  - assert (E2 : beqb (last (a :: l) "/"%byte) "/"%byte = false) by (apply beqb_neq; exact H). rewrite E2. reflexivity.
Qed.


Lemma digits_dec n : 0 <= n -> Forall (fun c => 48 <= ord c <= 57) (dec n).
Proof.
  revert n. apply (nat_ind10 (fun n => Forall (fun c => 48 <= ord c <= 57) (dec n))).
  - intros n Hn. rewrite dec_unfold by lia. replace (n <? 10) with true by lia. constructor; [|constructor]. destruct (is_digit_chr n Hn) as [_ ->]. lia.
  - intros n Hn IH. rewrite dec_unfold by lia. replace (n <? 10) with false by lia. apply Forall_app. split; [exact IH|]. constructor; [|constructor].
    assert (B : 0 <= n mod 10 < 10) by (apply Z.mod_pos_bound; reflexivity). destruct (is_digit_chr (n mod 10) B) as [_ ->]. lia.
Qed.

(** A version number that is a number names a file directly in the location: its decimal digits,
    after a minus sign for negative ones. *)
Theorem C84_files : forall fs location n,
  lrd_key (lFileReader fs location) (JInt n) = match fs (inside location (int_to_str n)) with Some s => Ok s | None => Raise KeyczarError end /\
  Forall (fun c => c = "-"%byte \/ 48 <= ord c <= 57) (int_to_str n) /\ int_to_str n <> [].
Proof.
  intros fs location n. destruct (num_first n) as (c & r & E & Hc). split; [|split].
  - cbn [lFileReader lrd_key py_str bind]. unfold read_path. rewrite join_inside; [reflexivity| |rewrite E; discriminate]. intros c' r' E'. rewrite E in E'. injection E' as <- _. intros ->. change (ord "/"%byte) with 47 in Hc. lia.
  - rewrite int_to_str_dec. destruct (n <? 0) eqn:EN; [constructor; [left; reflexivity|]|]; (eapply Forall_impl; [|apply digits_dec; lia]); intros a Ha; right; exact Ha.
  - rewrite E. discriminate.
Qed.
Print Assumptions C84_files.

(** A key set in plain files is opened by the file reader only if its metadata says "not encrypted";
    otherwise it is refused, whatever the files of its keys contain. *)
Theorem C84_plain_files : forall c fs location,
  (forall ks, lopen c (lFileReader fs location) = Ok ks -> says_no (lm_encrypted (ls_meta ks))) /\
  (forall s m, fs (inside location (bs "meta")) = Some s -> lmeta_Read s = Ok m -> ~ says_no (lm_encrypted m) -> lopen c (lFileReader fs location) = Raise KeyczarError).
Proof.
  intros c fs location. destruct (C84_encrypted c (lFileReader fs location)) as (H1 & H2 & _). split; [intros ks; exact (H1 ks eq_refl)|].
  intros s m HF HM HN. refine (H2 s m _ HM eq_refl HN). cbn [lFileReader lrd_meta]. unfold read_path.
  rewrite join_inside; [rewrite HF; reflexivity | intros c' r E; injection E as <- _; discriminate | discriminate].
Qed.
Print Assumptions C84_plain_files.

(** But a "number" that is a string is taken as a path: a key set opens with a key from any file
    that its metadata names, outside its own location. *)
Theorem C84_other_files_refuted : forall path, hd_error path = Some "/"%byte -> Forall (fun c => ord c < 128) path ->
  forall fs location s m v t k h,
  fs (inside location (bs "meta")) = Some s -> lmeta_Read s = Ok m -> lm_versions m = [v] -> lv_num v = JStr (text_of_str path) ->
  lm_purpose m = SIGN_AND_VERIFY -> lm_encrypted m = JBool false ->
  fs path = Some t -> lread_key (lm_type m) t = Ok (k, h) ->
  exists p, lopen Signer (lFileReader fs location) = Ok (MkLSet m p [(0%nat, k)] [(h, k)]).
Proof.
  intros path HA HP fs location s m v t k h HM HR HV HN HU HE HF HK. unfold lopen. cbn [lFileReader lrd_meta lrd_key lrd_encrypted]. unfold read_path at 1.
  rewrite join_inside; [|intros c r E; injection E as <- _; discriminate | discriminate]. rewrite HM. cbn [bind]. rewrite HR. cbn [bind]. rewrite HU, HE. cbn [IsAcceptablePurpose purpose_eqb negb truth andb].
  rewrite HV. cbn [lload]. destruct (status_eqb (lv_status v) PRIMARY); cbn [bind lrd_key]; rewrite HN; cbn [lFileReader lrd_key py_str]; rewrite str_of_text_of_str by exact HP; cbn [bind]; unfold read_path;
    (assert (J : join location path = path) by (destruct path as [|c r]; [discriminate HA|]; injection HA as ->; reflexivity)); rewrite J, HF; cbn [bind]; rewrite HK; cbn [bind app dict_set]; eexists; reflexivity.
Qed.
Print Assumptions C84_other_files_refuted.

Definition borrowed_meta : str := bs "{""name"": 7, ""purpose"": ""SIGN_AND_VERIFY"", ""type"": ""HMAC_SHA1"", ""encrypted"": false, ""versions"": [{""versionNumber"": ""/other/1"", ""status"": ""PRIMARY"", ""exportable"": null}]}".
Definition borrowed_fs : files := fun p => if str_eqb p (bs "/set/meta") then Some borrowed_meta else if str_eqb p (bs "/other/1") then Some (bs "{""hmacKeyString"": ""YWJj"", ""size"": true}") else None.
Definition loose_text (versions encrypted : string) : str :=
  bs (String.append "{""name"": null, ""purpose"": ""VERIFY"", ""type"": ""HMAC_SHA1"", ""encrypted"": " (String.append encrypted (String.append ", ""versions"": " (String.append versions "}")))).

Example C84_case :
  (exists m v k h, lmeta_Read borrowed_meta = Ok m /\ lm_versions m = [v] /\ lv_num v = JStr (text_of_str (bs "/other/1")) /\ lm_name m = JInt 7 /\ lm_purpose m = SIGN_AND_VERIFY /\ lm_encrypted m = JBool false /\
     lread_key HMAC_SHA1 (bs "{""hmacKeyString"": ""YWJj"", ""size"": true}") = Ok (k, h) /\ key_size k = 256 /\
     lopen Signer (lFileReader borrowed_fs (bs "/set")) = Ok (MkLSet m (Some 0%nat) [(0%nat, k)] [(h, k)])) /\
  (exists m, lmeta_Read (loose_text "[{""versionNumber"": 1, ""status"": ""ACTIVE"", ""exportable"": 0}, {""versionNumber"": true, ""status"": ""PRIMARY"", ""exportable"": 1}, {""versionNumber"": ""1"", ""status"": ""PRIMARY"", ""exportable"": 2}]" """""") = Ok m /\
     map lv_num (lm_versions m) = [JInt 1; JStr (tx "1")] /\ lm_encrypted m = JStr []) /\
  lmeta_Read (loose_text "[{""versionNumber"": [1], ""status"": ""ACTIVE"", ""exportable"": 0}]" "0") = Raise TypeError /\
  lmeta_Read (loose_text "[{""versionNumber"": 1, ""status"": 2, ""exportable"": 0}]" "0") = Raise KeyczarError /\
  lmeta_Read (loose_text """1""" "0") = Raise TypeError /\
  (exists m, lmeta_Read (loose_text "{}" "1") = Ok m /\ truth (lm_encrypted m) = true /\
     lopen Verifier (lFileReader (fun p => if str_eqb p (bs "/set/meta") then Some (loose_text "{}" "1") else None) (bs "/set")) = Raise KeyczarError) /\
  lread_key HMAC_SHA1 (bs "{""hmacKeyString"": 5, ""size"": 256}") = Raise AttributeError.
Proof.
  split; [eexists _, _, _, _; vm_compute; repeat split; reflexivity|]. split; [eexists; vm_compute; repeat split; reflexivity|]. split; [vm_compute; reflexivity|]. split; [vm_compute; reflexivity|]. split; [vm_compute; reflexivity|].
  split; [eexists; vm_compute; repeat split; reflexivity | vm_compute; reflexivity].
Qed.
