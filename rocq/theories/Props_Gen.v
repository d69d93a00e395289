(** * Props_Gen: the genkey command (C61, C62). *)
From Coq Require Import Strings.String.
From Coq Require Import List ZArith NArith Bool Lia ZifyBool ZifyNat ZifyN.
From Coq.Init Require Import Byte.
From Verif Require Import PyBase PyFacts Sha1 Base64 Base64Facts Util UtilFacts Json JsonFacts KeyInfo SymKeys ModArith Der AsymSpec AsymKeys AsymFacts Keys KeysFacts KeyData Keyczar KeyRing
  KeyczarFacts SymFacts Props_Util Props_Sym Props_Asym Props_Keyset Props_Sign Disk Keyczart DiskFacts CrashFacts Props_Disk Props_Tool Props_Cmd Props_Session GenKeySet.
Import ListNotations.
Local Open Scope Z_scope.
Ltac Zify.zify_post_hook ::= idtac.

(** ** Specification *)

(** The crypter named [cr] in the table, as loaded from the disk. *)
Definition crypter_at (f : disk) (l : str) (cr : option str) (c : option keyset) : Prop :=
  match cr, c with
  | None, None => True
  | Some x, Some ks => exec (read_location Crypter (path_join l x)) f = (f, Ok ks)
  | _, _ => False
  end.

(** [o] is a good answer for the message by key [k] of the set: a ciphertext the set decrypts, or
    a signature it accepts.  For RSA and DSA keys under the conditions of C19 and C35. *)
Definition answers (e : env) (ks : keyset) (k : key) (o : str) : Prop :=
  match ks_purpose ks with
  | DECRYPT_AND_ENCRYPT =>
      (exists raw, key_Encrypt e k test_msg = Ok raw /\ o = Base64WSEncode raw) /\
      (ks_type ks = AES -> Decrypt ks o b64_decoder = Ok test_msg) /\
      (forall r size em, k = KRsaPriv r -> In size rsa_sizes -> rsa_key_ok size r ->
         oaep_encode (size / 8) test_msg (RandBytes (e_tape e) 20) = Ok em -> (forall rest, em <> repeat x00 23 ++ rest) ->
         Decrypt ks o b64_decoder = Ok test_msg)
  | _ => signs_soundly e k (test_msg ++ VERSION_BYTE) -> Verify ks test_msg o b64_decoder = Ok true
  end.

(** The directory [d] holds the set [ks] with exactly two versions, the second one primary, both
    freshly generated with the default size, and the two answers; [c] is its crypter. *)
Definition test_set (r : luck) (g : disk) (d : str) (c : option keyset) (p : purpose) (t : ktype) (ks : keyset) (k1 k2 : key) (o1 o2 : str) : Prop :=
  (forall cl, In p (accepts cl) -> exec (open_files cl d c) g = (g, Ok ks)) /\
  ks_name ks = tx "Test" /\ ks_purpose ks = p /\ ks_type ks = t /\ ks_encrypted ks = (match c with Some _ => true | None => false end) /\
  (forall n, ring_of ks n = if n =? 1 then Some (ACTIVE, k1) else if n =? 2 then Some (PRIMARY, k2) else None) /\
  key_hash_id k1 <> key_hash_id k2 /\
  (exists dr, In dr (lk_ds1 r) /\ GenKey dr t (Some (default_size t)) = Ok k1) /\
  (exists dr, In dr (lk_ds2 r) /\ GenKey dr t (Some (default_size t)) = Ok k2) /\
  file g d (bs "1.out") = Some o1 /\ file g d (bs "2.out") = Some o2 /\
  answers (lk_use1 r) ks k1 o1 /\ answers (lk_use2 r) ks k2 o2.

(** PyCrypto's numbers are not negative. *)
Definition lucky (r : luck) : Prop := draws_ok (OpAdd (lk_ds1 r) PRIMARY None) /\ draws_ok (OpAdd (lk_ds2 r) PRIMARY None).

(** ** Opening *)

Lemma load_ext rd rd' t : forall vs o p vk hk, (forall v, In v vs -> rd_key rd' (v_num v) = rd_key rd (v_num v)) ->
  load_keys rd' t o vs p vk hk = load_keys rd t o vs p vk hk.
Proof.
  induction vs as [|v vs IH]; intros o p vk hk H; cbn [load_keys]; [reflexivity|]. rewrite (H v) by (left; reflexivity).
  destruct (if status_eqb (v_status v) PRIMARY then _ else _) as [p'|e]; cbn [bind]; [|reflexivity].
  destruct (rd_key rd (v_num v)) as [s|e]; cbn [bind]; [|reflexivity]. destruct (ReadKey t s) as [k|e]; cbn [bind]; [|reflexivity].
  destruct (key_hash_id k) as [h|e]; cbn [bind]; [|reflexivity]. apply IH. intros w Hw. apply H. right. exact Hw.
Qed.

Lemma accepts_ok c p : In p (accepts c) -> IsAcceptablePurpose c p = true.
Proof. destruct c, p; cbn [accepts In]; intros H; try reflexivity; decompose [or] H; try discriminate; contradiction. Qed.

(** A set opens in the same way from another reader with the same metadata and the same keys, by
    any class that accepts its purpose. *)
Lemma open_ext c c' rd rd' ks : open_keyset c rd = Ok ks -> rd_meta rd' = rd_meta rd -> rd_encrypted rd' = true \/ rd_encrypted rd' = rd_encrypted rd ->
  In (ks_purpose ks) (accepts c') -> (forall v, In v (ks_objs ks) -> rd_key rd' (v_num v) = rd_key rd (v_num v)) -> open_keyset c' rd' = Ok ks.
Proof.
  intros H EM EE HA EK. pose proof H as H0. apply open_ok in H0 as (s & m & l & A1 & A2 & A3 & A4 & _ & _ & A5 & _ & _ & A6 & _).
  unfold open_keyset in *. rewrite EM, A1 in *. cbn [bind] in *. rewrite A2 in *. cbn [bind] in *.
  assert (HA' : IsAcceptablePurpose c' (m_purpose m) = true) by (rewrite <- A5; apply accepts_ok; exact HA).
  rewrite HA'. rewrite A3 in H. cbn [negb] in *. destruct (m_encrypted m && negb (rd_encrypted rd)) eqn:E1; [discriminate|].
  assert (E2 : m_encrypted m && negb (rd_encrypted rd') = false) by (destruct (m_encrypted m); [|reflexivity]; rewrite (A4 eq_refl) in EE; destruct EE as [-> | ->]; reflexivity).
  rewrite E2. rewrite A6 in EK. rewrite (load_ext rd rd' (m_type m) (meta_versions m) _ _ _ _ EK). exact H.
Qed.

Lemma disk_meta f l cr : rd_meta (disk_reader f l cr) = answer (file f l meta_file).
Proof. destruct cr; reflexivity. Qed.
Lemma disk_key f l cr n : rd_key (disk_reader f l cr) n =
  let* s := answer (file f l (key_file n)) in match cr with None => Ok s | Some c => Decrypt c s b64_decoder end.
Proof. destruct cr; unfold disk_reader, EncryptedReader; cbn [file_reader rd_key]; destruct (file f l (key_file n)); reflexivity. Qed.

(** Only the metadata and the key files matter. *)
Lemma open_files_ext c c' l cr f g ks : open_keyset c (disk_reader f l cr) = Ok ks -> In (ks_purpose ks) (accepts c') ->
  file g l meta_file = file f l meta_file -> (forall n, file g l (key_file n) = file f l (key_file n)) -> open_keyset c' (disk_reader g l cr) = Ok ks.
Proof.
  intros H HA EM EK. apply (open_ext c c' (disk_reader f l cr)); [exact H | rewrite !disk_meta, EM; reflexivity | right; destruct cr; reflexivity | exact HA|].
  intros v _. rewrite !disk_key, EK. reflexivity.
Qed.

Lemma out_not_key n : key_file n <> bs "1.out" /\ key_file n <> bs "2.out".
Proof.
  split; intros C; pose proof (parse_number_ok n [] I) as A; rewrite app_nil_r in A; unfold key_file in C; rewrite C in A; vm_compute in A; discriminate.
Qed.

(** ** What a program can write *)
Fixpoint only {A} (w : str -> Prop) (p : prog A) : Prop :=
  match p with
  | Done _ => True
  | Read _ _ k => forall o, only w (k o)
  | IsDir _ k | IsFile _ _ k => forall b, only w (k b)
  | OpenW l _ k | Remove l _ k => w l /\ forall b, only w (k b)
  | Write l _ _ k => w l /\ only w k
  | List _ k => forall o, only w (k o)
  end.
Lemma only_bind {A B} w (p : prog A) (q : A -> prog B) : only w p -> (forall a, only w (q a)) -> only w (pbind p q).
Proof. induction p as [[a|e]|l n k IH|l k IH|l n k IH|l n k IH|l n d k IH|l n k IH|l k IH]; cbn [only pbind]; intros R Q; auto; destruct R as [R1 R2]; auto. Qed.
Lemma only_reads {A} w (p : prog A) : reads p -> only w p.
Proof. induction p; cbn [only reads]; intros; auto; contradiction. Qed.
Lemma only_sub {A} (w w' : str -> Prop) (p : prog A) : (forall l, w l -> w' l) -> only w p -> only w' p.
Proof. intros S. induction p; cbn [only]; intros H'; auto; try (destruct H' as [H1 H2]); auto. Qed.

Lemma dstep_only {A} w (p : prog A) f f' p' : only w p -> dstep f p = (f', p') ->
  only w p' /\ (forall l, has_dir f' l = has_dir f l) /\ forall l n, ~ w l -> file f' l n = file f l n.
Proof.
  intros O H. destruct p as [r|l0 n k|l0 k|l0 n k|l0 n k|l0 n d k|l0 n k|l0 k]; cbn [only dstep] in *; try (apply pair_inj in H as [<- <-]; auto).
  - destruct O as [W O]. destruct (has_dir f l0) eqn:HD; apply pair_inj in H as [<- <-]; [|auto]. split; [apply O|]. split; [intros l; apply has_dir_set|].
    intros l n' NW. rewrite file_set by exact HD. rewrite (str_eqb_neq l0 l) by congruence. reflexivity.
  - destruct O as [W O]. split; [exact O|]. split; [intros l; apply has_dir_put|]. intros l n' NW. rewrite file_put, (str_eqb_neq l0 l) by congruence. cbn [andb]. destruct (file f l0 n); reflexivity.
  - destruct O as [W O]. destruct (file f l0 n) eqn:HF; apply pair_inj in H as [<- <-]; [|auto]. split; [apply O|]. split; [intros l; apply has_dir_del|].
    intros l n' NW. rewrite file_del, (str_eqb_neq l0 l) by congruence. reflexivity.
Qed.

Lemma during_only {A} w (p : prog A) f g : only w p -> during f p g ->
  (forall l, has_dir g l = has_dir f l) /\ forall l n, ~ w l -> file g l n = file f l n.
Proof.
  intros O H. induction H as [f p|f l n d d1 d2 k|f p f' p' g S H IH]; [auto| |].
  - destruct (dstep_only w (Write l n d1 k) f _ _ O eq_refl) as (_ & X & Y). auto.
  - destruct (dstep_only w p f f' p' O S) as (O' & X & Y). destruct (IH O') as [C D]. split; [intros l; rewrite C; apply X | intros l n NW; rewrite D, Y; auto].
Qed.

Lemma exec_only {A} w (p : prog A) f g r : only w p -> exec p f = (g, r) ->
  (forall l, has_dir g l = has_dir f l) /\ forall l n, ~ w l -> file g l n = file f l n.
Proof. intros O H. apply (during_only w p f g O), (during_end p f g r H). Qed.

Lemma only_WriteFile (w : str -> Prop) d l n : w l -> only w (WriteFile d l n).
Proof. intros W. cbn. split; [exact W|]. intros []; cbn; auto. Qed.
Lemma only_clean (w : str -> Prop) l : w l -> forall ns, only w (clean_files l ns).
Proof. intros W. induction ns as [|n ns IH]; cbn [clean_files only]; [exact I|]. intros []; [exact IH|]. cbn [only]. split; [exact W|]. intros []; [exact IH | exact I]. Qed.
Lemma only_Clean (w : str -> Prop) l : w l -> only w (Clean l).
Proof. intros W. cbn. intros [ns|]; [apply only_clean, W | exact I]. Qed.
Lemma only_WriteMetadata (w : str -> Prop) l m b : w l -> only w (WriteMetadata l m b).
Proof.
  intros W. unfold WriteMetadata, pure. assert (G : only w (do s <- Done (meta_str m); WriteFile s l meta_file)) by (apply only_bind; [exact I | intros s; apply only_WriteFile, W]).
  destruct b; [exact G|]. cbn [only]. intros []; [exact I | exact G].
Qed.
Lemma only_write_keys (w : str -> Prop) l objs enc es : w l -> forall vk i, only w (write_keys l objs vk enc es i).
Proof.
  intros W. induction vk as [|[o k] vk IH]; intros i; cbn [write_keys]; [exact I|]. apply only_bind; [|intros; apply IH].
  unfold WriteKey, pure. apply only_bind; [exact I|]. intros s. apply only_bind; [destruct enc; exact I|]. intros s'. apply only_WriteFile, W.
Qed.
Lemma only_WriteSet (w : str -> Prop) l ks enc es : w l -> only w (WriteSet ks l enc es).
Proof. intros W. apply only_bind; [apply only_WriteMetadata, W | intros _; apply only_write_keys, W]. Qed.
Lemma only_Create (w : str -> Prop) l n p a : w l -> only w (Create (Some l) n p a).
Proof.
  intros W. cbn [Create]. unfold pure. apply only_bind; [exact I|]. intros [q t]. apply only_bind; [apply only_reads, reads_writer|]. intros _. apply only_WriteMetadata, W.
Qed.
Lemma only_AddKey (w : str -> Prop) l s c z ds es : w l -> only w (AddKeyCmd (Some l) s c z ds es).
Proof.
  intros W. apply only_bind; [apply only_reads, reads_generic|]. intros ks. destruct (AddVersion _ _ _ _) as [ks' r]. unfold pure. apply only_bind; [exact I|]. intros _.
  apply only_bind; [apply only_reads, reads_writer | intros _; apply only_WriteSet, W].
Qed.
Lemma only_UseKey (w : str -> Prop) p l n c e : w l -> only w (UseKey p l n c e).
Proof.
  intros W. unfold UseKey, pure. apply only_bind; [apply only_reads, reads_reader|]. intros _. apply only_bind; [|intros o; apply only_WriteFile, W].
  destruct p; try exact I; (apply only_bind; [apply only_reads, reads_open | intros; exact I]).
Qed.
Lemma only_gen_set (w : str -> Prop) l name p a cr r : w (path_join l name) -> only w (gen_set l (name, p, a, cr) r).
Proof.
  intros W. cbn [gen_set]. apply only_bind; [destruct cr; [apply only_bind; [apply only_reads, reads_location | intros; exact I] | exact I]|]. intros c.
  apply only_bind; [apply only_Clean, W|]. intros _. apply only_bind; [apply only_Create, W|]. intros _. apply only_bind; [apply only_AddKey, W|]. intros _.
  apply only_bind; [apply only_UseKey, W|]. intros _. apply only_bind; [apply only_AddKey, W|]. intros _. apply only_UseKey, W.
Qed.
Lemma only_export_keys (w : str -> Prop) dest objs : w dest -> forall vk m, only w (export_keys dest objs vk m).
Proof.
  intros W. induction vk as [|[o k] vk IH]; intros m; cbn [export_keys]; [exact I|]. unfold pure. apply only_bind; [exact I|]. intros pub. apply only_bind; [exact I|]. intros s.
  apply only_bind; [apply only_WriteFile, W | intros _; apply IH].
Qed.
Lemma only_PubKey (w : str -> Prop) l dest : w dest -> only w (PubKeyCmd (Some l) (Some dest)).
Proof.
  intros W. cbn [PubKeyCmd]. apply only_bind; [apply only_reads, reads_generic|]. intros ks. unfold PublicKeyExport, pure. apply only_bind; [exact I|]. intros [p t].
  apply only_bind; [apply only_export_keys, W|]. intros m. apply only_bind; [exact I|]. intros s. apply only_WriteFile, W.
Qed.

(** ** Making one set *)

Lemma path_join_inj l a b : path_join l a = path_join l b -> a = b.
Proof.
  unfold path_join. destruct l as [|c l]; [auto|]. destruct (ends_with_slash (c :: l)); intros H.
  - apply app_inv_head in H. exact H.
  - apply app_inv_head in H. cbn in H. congruence.
Qed.

(** One [addkey] with the crypter [c]. *)
Lemma add_step d c ks ds es f g : open_keyset GenericKeyczar (disk_reader f d c) = Ok ks -> text_ok (ks_name ks) -> draws_ok (OpAdd ds PRIMARY None) ->
  reads_back c c -> exec (AddKeyCmd (Some d) PRIMARY c (-1) ds es) f = (g, Ok tt) ->
  exists ks' r', open_keyset GenericKeyczar (disk_reader g d c) = Ok ks' /\ ks_name ks' = ks_name ks /\ ks_purpose ks' = ks_purpose ks /\ ks_type ks' = ks_type ks /\
    ks_encrypted ks' = (match c with Some _ => true | None => false end) /\
    ring_cmd (ks_type ks) (ring_of ks) (CmdAddKey PRIMARY (-1) ds) r' /\ (forall n, ring_of ks' n = r' n) /\
    forall n', n' <> meta_file -> (forall n, n' <> key_file n) -> file g d n' = file f d n'.
Proof.
  intros HO HN HD RB HX. pose proof (made_open _ _ _ HO) as M. pose proof (made_inv _ M) as I.
  rewrite (exec_add d c PRIMARY (-1) ds es f ks HO) in HX. destruct (add_loaded _ _ ks ds PRIMARY (-1) HO HD) as [(ks' & r' & EA & RR & RE)|(ks' & e & EA & _)]; rewrite EA in HX.
  2:{ apply pair_inj in HX as [_ HX]. discriminate. }
  set (o := OpAdd ds PRIMARY (if -1 =? -1 then None else Some (-1))). assert (ES : fst (step ks o) = ks') by (cbn [step o]; rewrite EA; reflexivity).
  assert (M' : made ks') by (rewrite <- ES, step_run; apply made_run; [exact M | repeat constructor; exact HD]).
  destruct (name_step ks o I) as (A1 & A2 & A3 & _). rewrite ES in A1, A2, A3.
  assert (HN' : text_ok (ks_name ks')) by (rewrite A1; exact HN).
  destruct (stored_again ks' d c c es f g M' HN' RB HX) as (_ & _ & ks2 & S3 & (E1 & E2 & E3 & _ & E5 & _) & E6).
  exists ks2, r'. split; [exact S3|]. split; [congruence|]. split; [congruence|]. split; [congruence|]. split; [exact E6|]. split; [exact RR|].
  split; [intros m; rewrite E5; apply RE|]. intros n' A B.
  destruct (WriteSet_spec _ _ _ _ _ _ _ (made_inv _ M') HX) as (_ & _ & _ & W & _). apply W. right. split; [exact A | intros q _; apply B].
Qed.

(** The answer of a set with purpose [p]. *)
Definition makes (e : env) (ks : keyset) (p : purpose) (o : str) : Prop :=
  match p with
  | DECRYPT_AND_ENCRYPT => Encrypt e ks test_msg b64_encoder = Ok o
  | SIGN_AND_VERIFY => Sign e ks test_msg b64_encoder = Ok o
  | _ => False
  end.

(** One use of the key. *)
Lemma use_step p d n c e f g ks : open_keyset GenericKeyczar (disk_reader f d c) = Ok ks -> ks_purpose ks = p -> p = DECRYPT_AND_ENCRYPT \/ p = SIGN_AND_VERIFY ->
  exec (UseKey p d n c e) f = (g, Ok tt) -> exists o, set_to f g d n o /\ makes e ks p o.
Proof.
  intros HO HP PP HX. pose proof (opened_dir _ _ _ _ _ HO) as HD. unfold UseKey in HX. rewrite exec_bind in HX.
  assert (E : exec (CreateReader d) f = (f, Ok IsFileReader)) by (cbn; rewrite HD; reflexivity). rewrite E in HX. rewrite exec_bind in HX.
  assert (OP : forall cl, In p (accepts cl) -> open_keyset cl (disk_reader f d c) = Ok ks).
  { intros cl Hc. apply (open_files_ext GenericKeyczar cl d c f f ks HO); [rewrite HP; exact Hc | reflexivity | reflexivity]. }
  destruct PP as [-> | ->]; cbn [makes].
  - rewrite exec_bind, exec_open, (OP Crypter) in HX by (cbn; auto). rewrite exec_pure in HX. destruct (Encrypt e ks test_msg b64_encoder) as [o|x]; [|apply pair_inj in HX as [_ HX]; discriminate].
    destruct (WriteFile_ok f o d n HD) as (g1 & E1 & S1). rewrite E1 in HX. apply pair_inj in HX as [<- _]. exists o. auto.
  - rewrite exec_bind, exec_open, (OP Signer) in HX by (cbn; auto). rewrite exec_pure in HX. destruct (Sign e ks test_msg b64_encoder) as [o|x]; [|apply pair_inj in HX as [_ HX]; discriminate].
    destruct (WriteFile_ok f o d n HD) as (g1 & E1 & S1). rewrite E1 in HX. apply pair_inj in HX as [<- _]. exists o. auto.
Qed.

Lemma answers_ok e ks1 ks p n m k o : reached ks1 -> ring_of ks1 n = Some (PRIMARY, k) -> holds ks m k -> ks_purpose ks = p -> makes e ks1 p o -> answers e ks k o.
Proof.
  intros R HR HV HP HM. unfold answers. rewrite HP. pose proof HV as (RV & DV & s & HRV). pose proof (reached_inv _ RV) as IV.
  destruct p; cbn [makes] in HM; try contradiction.
  - apply Encrypt_b64 in HM as (raw & HE & ->). destruct (encrypt_shape e ks1 test_msg raw R HE) as (n2 & k2 & id & rest & HR2 & HH & L & HEk & ->).
    destruct (ring_one_primary ks1 (reached_inv _ R) n n2 k k2 HR HR2) as [<- <-].
    split; [exists (x00 :: id ++ rest); split; [exact HEk | reflexivity]|].
    rewrite Decrypt_b64, (Decrypt_made ks m k id rest HV HH L). split.
    + intros T. destruct (ring_entry ks m s k IV HRV) as (o & _ & HK & _). pose proof (inv_type ks IV o k (assoc_In Nat.eqb_eq HK)) as HT.
      rewrite T in HT. destruct (key_type_aes k HT) as (a & ->). apply (aes_key_roundtrip e a test_msg _ _ HH HEk).
    + intros r size em -> HS HK HO HZ. destruct (C19_rsa_roundtrip_partial size r (e_tape e) test_msg HS HK) as (em' & c & E1 & E2 & E3).
      { clear - HS. change (len test_msg) with 22. cbn [rsa_sizes In] in HS. decompose [or] HS; subst; try contradiction; vm_compute; discriminate. }
      rewrite HO in E1. apply Ok_inj in E1 as <-. cbn [key_Encrypt] in HEk. rewrite E2 in HEk. apply Ok_inj in HEk as <-. cbn [key_Decrypt]. apply E3, HZ.
  - intros SS. refine (proj2 (C35_detached_signatures e ks1 k test_msg ks m k _ SS HV _) o HM); [|left; reflexivity].
    split; [exact R | exists n; exact HR].
Qed.

Lemma gen_set_ok l name p a cr t r f g : lucky r -> implied p a t -> exec (gen_set l (name, p, a, cr) r) f = (g, Ok tt) ->
  exists c, crypter_at f l cr c /\ (reads_back c c -> exists ks k1 k2 o1 o2, test_set r g (path_join l name) c p t ks k1 k2 o1 o2).
Proof.
  intros [L1 L2] HI HX. cbn [gen_set] in HX. set (d := path_join l name) in *. rewrite exec_bind in HX.
  assert (PP : p = DECRYPT_AND_ENCRYPT \/ p = SIGN_AND_VERIFY) by (destruct HI; auto).
  assert (exists c, crypter_at f l cr c /\ exec (match cr with Some c => do ks <- CreateCrypter (path_join l c); Done (Ok (Some ks)) | None => Done (Ok None) end) f = (f, Ok c)) as (c & HC & EC).
  { destruct cr as [x|]; [|exists None; split; [exact I | reflexivity]]. rewrite exec_bind in *. unfold CreateCrypter in *.
    pose proof (exec_reads _ (reads_location Crypter (path_join l x)) f) as E. destruct (exec (read_location Crypter (path_join l x)) f) as [f' [ks|e]] eqn:EE; cbn [fst] in E; subst f'.
    - exists (Some ks). split; [exact EE | reflexivity].
    - apply pair_inj in HX as [_ HX]. discriminate. }
  rewrite EC in HX. exists c. split; [exact HC|]. intros RB.
  rewrite exec_bind in HX. destruct (exec (Clean d) f) as [f1 [[]|e]]; [|apply pair_inj in HX as [_ HX]; discriminate].
  rewrite exec_bind in HX. destruct (exec (Create (Some d) (tx "Test") (Some p) a) f1) as [f2 [[]|e]] eqn:E2; [|apply pair_inj in HX as [_ HX]; discriminate].
  destruct (C46_create_never_overwrites _ _ _ _ _ _ _ E2) as (_ & _ & C3). destruct (C3 eq_refl) as (d' & q & t' & Ed & HD & HF & _). injection Ed as <-. clear C3 q t'.
  destruct (C46_create_fresh f1 d (tx "Test") p a t HD HF (tx_ok _) HI) as (g2 & s2 & E2' & _ & ks0 & L0 & N0 & P0 & T0 & _ & V0 & R0).
  rewrite E2 in E2'. apply pair_inj in E2' as [<- _]. pose proof (loadable_open _ _ _ L0) as O0.
  assert (O0' : open_keyset GenericKeyczar (disk_reader f2 d c) = Ok ks0).
  { apply (open_ext GenericKeyczar _ (disk_reader f2 d None)); [exact O0 | rewrite !disk_meta; reflexivity | destruct c; [left | right]; reflexivity | apply made_acceptable, (made_open _ _ _ O0)|].
    intros v Hv. exfalso. pose proof O0 as O1. apply open_ok in O1 as (s & m & ls & _ & _ & _ & _ & _ & _ & _ & _ & _ & EO & EM & _).
    assert (E0 : ks_mvers ks0 = []) by (unfold ks_meta in V0; cbn [m_versions] in V0; destruct (ks_mvers ks0); [reflexivity | discriminate]).
    rewrite EM in E0. rewrite EO in Hv. unfold meta_versions in *. destruct (m_versions m); [destruct Hv | discriminate]. }
  clear E2 L0 O0 V0 HD HF.
  rewrite exec_bind in HX. destruct (exec (AddKeyCmd (Some d) PRIMARY c (-1) (lk_ds1 r) (lk_es1 r)) f2) as [f3 [[]|e]] eqn:E3; [|apply pair_inj in HX as [_ HX]; discriminate].
  assert (HN0 : text_ok (ks_name ks0)) by (rewrite N0; apply tx_ok).
  destruct (add_step d c ks0 _ _ f2 f3 O0' HN0 L1 RB E3) as (ks1 & r1 & O1 & N1 & P1 & T1 & _ & RC1 & RE1 & _).
  inversion RC1 as [s size ds0 dr1 n1 k1 _ HI1 HG1 HNN1 _ Q1 Q2| | |]; subst s size ds0 r1.
  assert (n1 = 1) by (destruct HNN1 as (_ & _ & [H|(x & H)]); [exact H | rewrite R0 in H; discriminate]). subst n1. clear HNN1 RC1.
  assert (R1 : forall n, ring_of ks1 n = if n =? 1 then Some (PRIMARY, k1) else None).
  { intros n. rewrite RE1. unfold ring_add. rewrite R0. reflexivity. }
  rewrite exec_bind in HX. destruct (exec (UseKey p d (bs "1.out") c (lk_use1 r)) f3) as [f4 [[]|e]] eqn:E4; [|apply pair_inj in HX as [_ HX]; discriminate].
  assert (P1' : ks_purpose ks1 = p) by congruence.
  destruct (use_step p d _ c _ f3 f4 ks1 O1 P1' PP E4) as (o1 & S1 & M1).
  assert (O1' : open_keyset GenericKeyczar (disk_reader f4 d c) = Ok ks1).
  { apply (open_files_ext GenericKeyczar _ d c f3); [exact O1 | apply made_acceptable, (made_open _ _ _ O1) | apply (set_to_other _ _ _ _ _ _ _ S1); right; discriminate|].
    intros n. apply (set_to_other _ _ _ _ _ _ _ S1). right. apply out_not_key. }
  rewrite exec_bind in HX. destruct (exec (AddKeyCmd (Some d) PRIMARY c (-1) (lk_ds2 r) (lk_es2 r)) f4) as [f5 [[]|e]] eqn:E5; [|apply pair_inj in HX as [_ HX]; discriminate].
  assert (HN1 : text_ok (ks_name ks1)) by (rewrite N1; exact HN0).
  destruct (add_step d c ks1 _ _ f4 f5 O1' HN1 L2 RB E5) as (ks & r2 & O2 & N2 & P2 & T2 & X2 & RC2 & RE2 & FS).
  inversion RC2 as [s size ds0 dr2 n2 k2 _ HI2 HG2 HNN2 HU2 Q1 Q2| | |]; subst s size ds0 r2.
  assert (n2 = 2).
  { destruct HNN2 as (_ & H1 & [H|(x & H)]).
    - specialize (H1 1 (PRIMARY, k1)). rewrite R1 in H1. specialize (H1 eq_refl). lia.
    - rewrite R1 in H. destruct (n2 - 1 =? 1) eqn:E; [lia | discriminate]. }
  subst n2. clear HNN2 RC2.
  assert (R2 : forall n, ring_of ks n = if n =? 1 then Some (ACTIVE, k1) else if n =? 2 then Some (PRIMARY, k2) else None).
  { intros n. rewrite RE2. unfold ring_add. rewrite R1. destruct (n =? 2) eqn:EA; [replace (n =? 1) with false by lia; reflexivity|]. destruct (n =? 1); reflexivity. }
  assert (D12 : key_hash_id k1 <> key_hash_id k2) by (apply (HU2 1 PRIMARY); rewrite R1; reflexivity).
  assert (P2' : ks_purpose ks = p) by congruence.
  destruct (use_step p d _ c _ f5 g ks O2 P2' PP HX) as (o2 & S2 & M2).
  assert (F1 : file g d (bs "1.out") = Some o1).
  { rewrite (set_to_other _ _ _ _ _ d (bs "1.out") S2) by (right; discriminate). rewrite FS; [apply (set_to_this _ _ _ _ _ S1) | discriminate|].
    intros n C. apply (proj1 (out_not_key n)). congruence. }
  assert (DI : ids_distinct ks).
  { apply (opened_ids _ _ _ O2). intros n m s s' k k' A B E. rewrite R2 in A, B.
    destruct (n =? 1) eqn:E1; [|destruct (n =? 2) eqn:E2; [|discriminate]]; (destruct (m =? 1) eqn:E1'; [|destruct (m =? 2) eqn:E2'; [|discriminate]]); try lia; exfalso; congruence. }
  pose proof (made_reached _ (made_open _ _ _ O1)) as RR1. pose proof (made_reached _ (made_open _ _ _ O2)) as RR2.
  exists ks, k1, k2, o1, o2. split.
  { intros cl Hc. rewrite exec_open. f_equal. apply (open_files_ext GenericKeyczar cl d c f5 g ks O2); [congruence | apply (set_to_other _ _ _ _ _ _ _ S2); right; discriminate|].
    intros n. apply (set_to_other _ _ _ _ _ _ _ S2). right. apply out_not_key. }
  split; [congruence|]. split; [exact P2'|]. split; [congruence|]. split; [exact X2|]. split; [exact R2|]. split; [exact D12|].
  rewrite T1, T0 in HG2. rewrite T0 in HG1.
  split; [exists dr1; split; assumption|]. split; [exists dr2; split; assumption|]. split; [exact F1|]. split; [apply (set_to_this _ _ _ _ _ S2)|]. split.
  - apply (answers_ok (lk_use1 r) ks1 ks p 1 1 k1 o1 RR1); [rewrite R1; reflexivity | | exact P2' | exact M1]. split; [exact RR2|]. split; [exact DI|]. exists ACTIVE. rewrite R2. reflexivity.
  - apply (answers_ok (lk_use2 r) ks ks p 2 2 k2 o2 RR2); [rewrite R2; reflexivity | | exact P2' | exact M2]. split; [exact RR2|]. split; [exact DI|]. exists PRIMARY. rewrite R2. reflexivity.
Qed.

(** ** C61 *)

(** The sets the command makes: name, purpose, type, and the set that encrypts the keys. *)
Definition test_sets : list (str * purpose * ktype * option str) :=
  [(bs "aes", DECRYPT_AND_ENCRYPT, AES, None); (bs "aes-crypted", DECRYPT_AND_ENCRYPT, AES, Some (bs "aes"));
   (bs "hmac", SIGN_AND_VERIFY, HMAC_SHA1, None); (bs "rsa", DECRYPT_AND_ENCRYPT, RSA_PRIV, None);
   (bs "rsa-sign", SIGN_AND_VERIFY, RSA_PRIV, None); (bs "dsa", SIGN_AND_VERIFY, DSA_PRIV, None)].
(** All directories it writes to. *)
Definition test_dirs : list str := map (fun x => fst (fst (fst x))) test_sets ++ [bs "dsa.public"; bs "rsa-sign.public"].

Lemma test_set_same r g g' d c p t ks k1 k2 o1 o2 : (forall n, file g' d n = file g d n) ->
  test_set r g d c p t ks k1 k2 o1 o2 -> test_set r g' d c p t ks k1 k2 o1 o2.
Proof.
  intros HF (A & B & C & D & E & F & G & H1 & H2 & H3 & H4 & H5). unfold test_set. rewrite !HF. repeat (split; [|assumption] || split); try assumption.
  intros cl Hc. specialize (A cl Hc). rewrite exec_open in *. apply pair_inj in A as [_ A]. f_equal.
  apply (open_files_ext cl cl d c g g' ks A); [rewrite C; exact Hc | apply HF | intros; apply HF].
Qed.

Lemma exec_location c l f : exec (read_location c l) f = if has_dir f l then (f, open_keyset c (disk_reader f l None)) else (f, Raise KeyczarError).
Proof.
  rewrite exec_read_location. destruct (has_dir f l); [apply exec_open | reflexivity].
Qed.
Lemma read_location_same c l f g ks : (forall n, file g l n = file f l n) -> has_dir g l = has_dir f l -> exec (read_location c l) f = (f, Ok ks) -> exec (read_location c l) g = (g, Ok ks).
Proof.
  intros HF HD H. rewrite exec_location in *. rewrite HD. destruct (has_dir f l); [|apply pair_inj in H as [_ H]; discriminate].
  apply pair_inj in H as [_ H]. f_equal.
  apply (open_files_ext c c l None f g ks H); [|apply HF | intros; apply HF]. apply (proj1 (C33_opened_sets_have_the_purpose c _ ks [] H)).
Qed.

(** The set that encrypts other keys decrypts what it encrypts. *)
Lemma test_set_distinct r g d c p t ks k1 k2 o1 o2 : test_set r g d c p t ks k1 k2 o1 o2 -> forall cl, In p (accepts cl) -> made ks /\ ids_distinct ks.
Proof.
  intros (A & _ & _ & _ & _ & R2 & D12 & _) cl Hc. specialize (A cl Hc). rewrite exec_open in A. apply pair_inj in A as [_ A]. split; [apply (made_open _ _ _ A)|].
  apply (opened_ids _ _ _ A). intros n m s s' k k' H1 H2 E. rewrite R2 in H1, H2.
  destruct (n =? 1) eqn:E1; [|destruct (n =? 2) eqn:E2; [|discriminate]]; (destruct (m =? 1) eqn:E1'; [|destruct (m =? 2) eqn:E2'; [|discriminate]]); try lia; exfalso; congruence.
Qed.

Lemma dirs_distinct l a b : a <> b -> ~ path_join l b = path_join l a.
Proof. intros H C. apply path_join_inj in C. congruence. Qed.

Theorem C61_generated : forall rs l f g, (forall i, lucky (rs i)) -> exec (GenKeySet rs (Some l)) f = (g, Ok tt) ->
  forall i name p t cr, nth_error test_sets i = Some (name, p, t, cr) ->
  exists c ks k1 k2 o1 o2, crypter_at g l cr c /\ test_set (rs i) g (path_join l name) c p t ks k1 k2 o1 o2.
Proof.
  intros rs l f g HL HX. cbn [GenKeySet] in HX. rewrite exec_bind in HX. destruct (exec (gen_sets l KEYSETS rs 0) f) as [f6 [[]|e]] eqn:HS; [|apply pair_inj in HX as [_ HX]; discriminate].
  assert (OX : only (fun d => d = path_join l (bs "dsa.public") \/ d = path_join l (bs "rsa-sign.public")) (export_sets l [bs "dsa"; bs "rsa-sign"])).
  { cbn [export_sets]. apply only_bind; [apply only_PubKey; left; reflexivity|]. intros _. apply only_bind; [apply only_PubKey; right; reflexivity|]. intros _. exact I. }
  pose proof (exec_only _ _ _ _ _ OX HX) as [XD XF]. clear OX HX.
  unfold KEYSETS in HS. cbn [gen_sets] in HS.
  rewrite exec_bind in HS. destruct (exec (gen_set l (bs "aes", DECRYPT_AND_ENCRYPT, None, None) (rs 0%nat)) f) as [f1 [[]|e]] eqn:E1; [|apply pair_inj in HS as [_ HS]; discriminate].
  rewrite exec_bind in HS. destruct (exec (gen_set l (bs "aes-crypted", _, _, _) (rs 1%nat)) f1) as [f2 [[]|e]] eqn:E2; [|apply pair_inj in HS as [_ HS]; discriminate].
  rewrite exec_bind in HS. destruct (exec (gen_set l (bs "hmac", _, _, _) (rs 2%nat)) f2) as [f3 [[]|e]] eqn:E3; [|apply pair_inj in HS as [_ HS]; discriminate].
  rewrite exec_bind in HS. destruct (exec (gen_set l (bs "rsa", _, _, _) (rs 3%nat)) f3) as [f4 [[]|e]] eqn:E4; [|apply pair_inj in HS as [_ HS]; discriminate].
  rewrite exec_bind in HS. destruct (exec (gen_set l (bs "rsa-sign", _, _, _) (rs 4%nat)) f4) as [f5 [[]|e]] eqn:E5; [|apply pair_inj in HS as [_ HS]; discriminate].
  rewrite exec_bind in HS. destruct (exec (gen_set l (bs "dsa", _, _, _) (rs 5%nat)) f5) as [f6' [[]|e]] eqn:E6; [|apply pair_inj in HS as [_ HS]; discriminate].
  cbn [exec] in HS. apply pair_inj in HS as [-> _].
  pose proof (exec_only (fun d => d = path_join l (bs "aes-crypted")) _ _ _ _ (only_gen_set _ l _ _ _ _ _ eq_refl) E2) as [D2 F2].
  pose proof (exec_only (fun d => d = path_join l (bs "hmac")) _ _ _ _ (only_gen_set _ l _ _ _ _ _ eq_refl) E3) as [D3 F3].
  pose proof (exec_only (fun d => d = path_join l (bs "rsa")) _ _ _ _ (only_gen_set _ l _ _ _ _ _ eq_refl) E4) as [D4 F4].
  pose proof (exec_only (fun d => d = path_join l (bs "rsa-sign")) _ _ _ _ (only_gen_set _ l _ _ _ _ _ eq_refl) E5) as [D5 F5].
  pose proof (exec_only (fun d => d = path_join l (bs "dsa")) _ _ _ _ (only_gen_set _ l _ _ _ _ _ eq_refl) E6) as [D6 F6].
  assert (XF' : forall x n, x <> bs "dsa.public" -> x <> bs "rsa-sign.public" -> file g (path_join l x) n = file f6 (path_join l x) n).
  { intros x n A B. apply XF. intros [C|C]; apply path_join_inj in C; contradiction. }
  assert (IA : implied DECRYPT_AND_ENCRYPT None AES) by constructor.
  destruct (gen_set_ok l _ _ _ _ _ _ _ _ (HL 0%nat) IA E1) as (c1 & C1 & T1). destruct c1; [contradiction|]. destruct (T1 I) as (ks1 & k11 & k12 & o11 & o12 & TS1). clear T1 C1.
  assert (G1 : forall n, file g (path_join l (bs "aes")) n = file f1 (path_join l (bs "aes")) n).
  { intros n. rewrite XF', F6, F5, F4, F3, F2 by (first [apply dirs_distinct; discriminate | discriminate]). reflexivity. }
  assert (GD : forall x, has_dir g x = has_dir f1 x) by (intros x; rewrite XD, D6, D5, D4, D3, D2; reflexivity).
  destruct (gen_set_ok l _ _ _ _ _ _ _ _ (HL 1%nat) IA E2) as (c2 & C2 & T2). destruct c2 as [ks|]; [|contradiction]. cbn [crypter_at] in C2.
  assert (EK : ks = ks1).
  { pose proof (proj1 TS1 Crypter (or_introl eq_refl)) as O. rewrite exec_open in O. apply pair_inj in O as [_ O].
    rewrite exec_location in C2. destruct (has_dir f1 _); [|apply pair_inj in C2 as [_ C2]; discriminate]. apply pair_inj in C2 as [_ C2]. congruence. }
  subst ks. destruct (test_set_distinct _ _ _ _ _ _ _ _ _ _ _ TS1 Crypter (or_introl eq_refl)) as [M1 DI1].
  assert (RB : reads_back (Some ks1) (Some ks1)).
  { intros e s ct. apply C43_aes_sets_decrypt_what_they_encrypt; [apply made_reached, M1 | exact DI1 | apply TS1]. }
  destruct (T2 RB) as (ks2 & k21 & k22 & o21 & o22 & TS2). clear T2.
  assert (IH : implied SIGN_AND_VERIFY None HMAC_SHA1) by constructor.
  destruct (gen_set_ok l _ _ _ _ _ _ _ _ (HL 2%nat) IH E3) as (c3 & C3 & T3). destruct c3; [contradiction|]. destruct (T3 I) as (ks3 & k31 & k32 & o31 & o32 & TS3). clear T3 C3.
  assert (IR : implied DECRYPT_AND_ENCRYPT (Some (bs "rsa")) RSA_PRIV) by constructor.
  destruct (gen_set_ok l _ _ _ _ _ _ _ _ (HL 3%nat) IR E4) as (c4 & C4 & T4). destruct c4; [contradiction|]. destruct (T4 I) as (ks4 & k41 & k42 & o41 & o42 & TS4). clear T4 C4.
  assert (IS : implied SIGN_AND_VERIFY (Some (bs "rsa")) RSA_PRIV) by (constructor; reflexivity).
  destruct (gen_set_ok l _ _ _ _ _ _ _ _ (HL 4%nat) IS E5) as (c5 & C5 & T5). destruct c5; [contradiction|]. destruct (T5 I) as (ks5 & k51 & k52 & o51 & o52 & TS5). clear T5 C5.
  assert (ID : implied SIGN_AND_VERIFY (Some (bs "dsa")) DSA_PRIV) by (constructor; discriminate).
  destruct (gen_set_ok l _ _ _ _ _ _ _ _ (HL 5%nat) ID E6) as (c6 & C6 & T6). destruct c6; [contradiction|]. destruct (T6 I) as (ks6 & k61 & k62 & o61 & o62 & TS6). clear T6 C6.
  intros i name p t cr HN. unfold test_sets in HN.
  destruct i as [|[|[|[|[|[|i]]]]]]; cbn [nth_error] in HN; [| | | | | | destruct i; discriminate HN]; injection HN as <- <- <- <-.
  - exists None, ks1, k11, k12, o11, o12. split; [exact I|]. apply (test_set_same _ f1); [exact G1 | exact TS1].
  - exists (Some ks1), ks2, k21, k22, o21, o22. split; [apply (read_location_same _ _ f1); [exact G1 | apply GD | exact C2]|]. apply (test_set_same _ f2); [|exact TS2].
    intros n. rewrite XF', F6, F5, F4, F3 by (first [apply dirs_distinct; discriminate | discriminate]). reflexivity.
  - exists None, ks3, k31, k32, o31, o32. split; [exact I|]. apply (test_set_same _ f3); [|exact TS3].
    intros n. rewrite XF', F6, F5, F4 by (first [apply dirs_distinct; discriminate | discriminate]). reflexivity.
  - exists None, ks4, k41, k42, o41, o42. split; [exact I|]. apply (test_set_same _ f4); [|exact TS4].
    intros n. rewrite XF', F6, F5 by (first [apply dirs_distinct; discriminate | discriminate]). reflexivity.
  - exists None, ks5, k51, k52, o51, o52. split; [exact I|]. apply (test_set_same _ f5); [|exact TS5].
    intros n. rewrite XF', F6 by (first [apply dirs_distinct; discriminate | discriminate]). reflexivity.
  - exists None, ks6, k61, k62, o61, o62. split; [exact I|]. apply (test_set_same _ f6); [|exact TS6].
    intros n. rewrite XF' by discriminate. reflexivity.
Qed.
Print Assumptions C61_generated.

(** Whatever happens, and at every moment, no other directory is touched and none is made. *)
Theorem C61_writes_only_there : forall rs l f g, during f (GenKeySet rs (Some l)) g ->
  (forall d, has_dir g d = has_dir f d) /\ forall d n, (forall name, In name test_dirs -> d <> path_join l name) -> file g d n = file f d n.
Proof.
  intros rs l f g HX.
  assert (O : only (fun d => exists name, In name test_dirs /\ d = path_join l name) (GenKeySet rs (Some l))).
  { cbn [GenKeySet]. apply only_bind.
    - unfold KEYSETS. cbn [gen_sets].
      repeat (apply only_bind; [apply only_gen_set; eexists; split; [|reflexivity]; cbn; tauto|]; intros _). exact I.
    - intros _. cbn [export_sets]. apply only_bind; [apply only_PubKey; eexists; split; [|reflexivity]; cbn; tauto|]. intros _.
      apply only_bind; [apply only_PubKey; eexists; split; [|reflexivity]; cbn; tauto|]. intros _. exact I. }
  destruct (during_only _ _ _ _ O HX) as [A B]. split; [exact A|]. intros d n H. apply B. intros (name & HI & E). apply (H name HI E).
Qed.
Print Assumptions C61_writes_only_there.

(** *** The public sets *)

(** A set that verifies with the public halves accepts what the private set accepts. *)
Lemma Verify_public ks ks' data sig : made ks -> (forall o k, In (o, k) (ks_vkeys ks) -> exists n s, ring_of ks n = Some (s, k)) -> reached ks' -> ids_distinct ks' ->
  (forall n s k, ring_of ks n = Some (s, k) -> exists pub, public_key k = Ok pub /\ ring_of ks' n = Some (s, pub)) ->
  Verify ks data sig b64_decoder = Ok true -> Verify ks' data sig b64_decoder = Ok true.
Proof.
  intros M HV R' D' HP H. pose proof (made_inv _ M) as I. pose proof (reached_inv _ R') as I'. unfold Verify, InternalVerify, ParseHeader in *.
  apply bind_Ok in H as (b & -> & H). cbn [bind]. destruct (len b <? HEADER_SIZE); [discriminate|].
  apply bind_Ok in H as (k & HK & H). apply bind_Ok in HK as (c & -> & HK). cbn [bind]. destruct (negb (ord c =? VERSION)); [discriminate|].
  destruct (proj1 (GetKey_hash_spec ks _ I) k HK) as (HH & o & Ho). destruct (HV o k Ho) as (n & s & HR). destruct (HP n s k HR) as (pub & HPub & HR').
  destruct (ring_entry ks' n s pub I' HR') as (o' & _ & HK' & _).
  assert (HC : checks k pub) by (right; exact HPub).
  rewrite (ids_lookup ks' o' pub _ I' D' (assoc_In Nat.eqb_eq HK')) with (1 := eq_trans (public_id k pub HC) HH). cbn [bind].
  apply bind_Ok in H as (p & -> & H). cbn [bind]. rewrite (public_verify k pub _ _ HC). exact H.
Qed.

Lemma export_needs_dir ks dest f g : exec (PublicKeyExport ks dest) f = (g, Ok tt) -> has_dir f dest = true.
Proof.
  intros H. destruct (has_dir f dest) eqn:HD; [reflexivity|]. exfalso. unfold PublicKeyExport, pure in H.
  destruct (public_meta ks) as [[p t]|e]; cbn [pbind] in H; [|apply pair_inj in H as [_ H]; discriminate]. rewrite exec_bind in H.
  assert (G : forall vk m, (exists m', exec (export_keys dest (ks_objs ks) vk m) f = (f, Ok m')) \/ exists e, exec (export_keys dest (ks_objs ks) vk m) f = (f, Raise e)).
  { intros [|[o k] vk] m; cbn [export_keys]; [left; eexists; reflexivity|]. right. unfold pure. destruct (public_key k) as [pub|e]; cbn [pbind]; [|eexists; reflexivity].
    destruct (key_str pub) as [s|e]; cbn [pbind]; [|eexists; reflexivity]. rewrite exec_bind, (WriteFile_fail _ _ _ _ HD). eexists. reflexivity. }
  destruct (G (ks_vkeys ks) (MkMeta (ks_name ks) p t false [])) as [(m & E)|(e & E)]; rewrite E in H; [|apply pair_inj in H as [_ H]; discriminate].
  cbn iota beta in H. destruct (meta_str m) as [s|e]; cbn [pbind exec] in H; [|apply pair_inj in H as [_ H]; discriminate].
  rewrite (WriteFile_fail _ _ _ _ HD) in H. apply pair_inj in H as [_ H]. discriminate.
Qed.

(** The directory [dest] holds the public halves of the versions 1 and 2 of the test set. *)
Definition public_set (g : disk) (dest : str) (pt : ktype) (r : luck) (k1 k2 : key) (o1 o2 : str) : Prop :=
  exists p1 p2, public_key k1 = Ok p1 /\ public_key k2 = Ok p2 /\
  forall cl, In VERIFY (accepts cl) -> exists ks', exec (open_files cl dest None) g = (g, Ok ks') /\
    ks_name ks' = tx "Test" /\ ks_purpose ks' = VERIFY /\ ks_type ks' = pt /\ ks_encrypted ks' = false /\
    (forall n, ring_of ks' n = if n =? 1 then Some (ACTIVE, p1) else if n =? 2 then Some (PRIMARY, p2) else None) /\
    (signs_soundly (lk_use1 r) k1 (test_msg ++ VERSION_BYTE) -> Verify ks' test_msg o1 b64_decoder = Ok true) /\
    (signs_soundly (lk_use2 r) k2 (test_msg ++ VERSION_BYTE) -> Verify ks' test_msg o2 b64_decoder = Ok true).

Lemma pub_step l dest f g r t pt ks k1 k2 o1 o2 : test_set r f l None SIGN_AND_VERIFY t ks k1 k2 o1 o2 -> exported_as t SIGN_AND_VERIFY = Some (pt, VERIFY) ->
  exec (PubKeyCmd (Some l) (Some dest)) f = (g, Ok tt) -> public_set g dest pt r k1 k2 o1 o2.
Proof.
  intros TS EX HX. pose proof TS as (A & N & P & T & X & R2 & D12 & G1 & G2 & F1 & F2 & Q1 & Q2).
  assert (HG : In SIGN_AND_VERIFY (accepts GenericKeyczar)) by (cbn; tauto). pose proof (A GenericKeyczar HG) as HO.
  destruct (test_set_distinct _ _ _ _ _ _ _ _ _ _ _ TS GenericKeyczar HG) as [M DI]. pose proof (made_inv _ M) as I.
  assert (HN : text_ok (ks_name ks)) by (rewrite N; apply tx_ok). rewrite <- T, <- P in EX.
  pose proof HO as HOk. rewrite exec_open in HOk. apply pair_inj in HOk as [_ HOk].
  assert (HD : has_dir f dest = true).
  { unfold PubKeyCmd in HX. rewrite exec_bind, exec_generic, (opened_dir _ _ _ _ _ HOk), HOk in HX. apply (export_needs_dir _ _ _ _ HX). }
  destruct (C45_pubkey_command l dest f ks pt VERIFY HO HN HD EX) as (g' & E & HC). rewrite HX in E. apply pair_inj in E as [<- _].
  destruct (C45_public_export ks dest f pt VERIFY M HN HD EX) as (g' & E & _ & HC2).
  assert (g' = g).
  { unfold PubKeyCmd in HX. rewrite exec_bind, exec_generic, (opened_dir _ _ _ _ _ HOk), HOk in HX. rewrite E in HX. apply pair_inj in HX as [HX _]. exact HX. }
  subst g'.
  assert (PB : exists p1 p2, public_key k1 = Ok p1 /\ public_key k2 = Ok p2).
  { destruct (HC GenericKeyczar (or_intror (or_intror (or_intror (or_introl eq_refl))))) as (ks' & _ & HR). pose proof (HR 1) as H1. pose proof (HR 2) as H2. rewrite R2 in H1, H2. cbn in H1, H2.
    destruct H1 as (p1 & H1 & _). destruct H2 as (p2 & H2 & _). exists p1, p2. auto. }
  destruct PB as (p1 & p2 & PB1 & PB2). exists p1, p2. split; [exact PB1|]. split; [exact PB2|]. intros cl Hc.
  destruct (HC cl Hc) as (ks' & O' & HR). destruct (HC2 cl Hc) as (ks2 & O2 & N2 & P2 & T2 & X2 & _). rewrite O' in O2. apply pair_inj in O2 as [_ O2]. apply Ok_inj in O2 as <-.
  exists ks'. split; [exact O'|]. split; [congruence|]. split; [exact P2|]. split; [exact T2|]. split; [exact X2|].
  assert (R' : forall n, ring_of ks' n = if n =? 1 then Some (ACTIVE, p1) else if n =? 2 then Some (PRIMARY, p2) else None).
  { intros n. specialize (HR n). rewrite R2 in HR. destruct (n =? 1); [|destruct (n =? 2)]; [destruct HR as (q & H1 & H2 & _); congruence .. | exact HR]. }
  split; [exact R'|]. rewrite exec_open in O'. apply pair_inj in O' as [_ O'].
  assert (IDs : key_hash_id p1 = key_hash_id k1 /\ key_hash_id p2 = key_hash_id k2) by (split; apply public_id; right; assumption). destruct IDs as [I1 I2].
  assert (D' : ids_distinct ks').
  { apply (opened_ids _ _ _ O'). intros n m s s' k k' H1 H2 HE. rewrite R' in H1, H2.
    destruct (n =? 1) eqn:E1; [|destruct (n =? 2) eqn:E2; [|discriminate]]; (destruct (m =? 1) eqn:E1'; [|destruct (m =? 2) eqn:E2'; [|discriminate]]); try lia; exfalso; apply D12; congruence. }
  assert (V : forall o, Verify ks test_msg o b64_decoder = Ok true -> Verify ks' test_msg o b64_decoder = Ok true).
  { intros o. apply Verify_public; [exact M | | apply made_reached, (made_open _ _ _ O') | exact D' |].
    - intros o0 k Ho. eexists _, _. apply (opened_vkeys _ _ _ _ _ HOk Ho).
    - intros n s k HK. specialize (HR n). rewrite HK in HR. destruct HR as (pub & H1 & H2 & _). exists pub. auto. }
  unfold answers in Q1, Q2. rewrite P in Q1, Q2. split; intros SS; apply V; auto.
Qed.

(** The exported sets. *)
Theorem C61_public_sets : forall rs l f g, (forall i, lucky (rs i)) -> exec (GenKeySet rs (Some l)) f = (g, Ok tt) ->
  forall i name t pt ks k1 k2 o1 o2, In (i, name, t, pt) [(4%nat, bs "rsa-sign", RSA_PRIV, RSA_PUB); (5%nat, bs "dsa", DSA_PRIV, DSA_PUB)] ->
  test_set (rs i) g (path_join l name) None SIGN_AND_VERIFY t ks k1 k2 o1 o2 ->
  public_set g (path_join l (name ++ bs ".public")) pt (rs i) k1 k2 o1 o2.
Proof.
  intros rs l f g HL HX i name t pt ks k1 k2 o1 o2 HI TS. cbn [GenKeySet] in HX. rewrite exec_bind in HX.
  destruct (exec (gen_sets l KEYSETS rs 0) f) as [f6 [[]|e]] eqn:HS; [|apply pair_inj in HX as [_ HX]; discriminate]. cbn [export_sets] in HX.
  rewrite exec_bind in HX. destruct (exec (PubKeyCmd (Some (path_join l (bs "dsa"))) _) f6) as [f7 [[]|e]] eqn:E7; [|apply pair_inj in HX as [_ HX]; discriminate].
  rewrite exec_bind in HX. destruct (exec (PubKeyCmd (Some (path_join l (bs "rsa-sign"))) _) f7) as [f8 [[]|e]] eqn:E8; [|apply pair_inj in HX as [_ HX]; discriminate].
  cbn [exec] in HX. apply pair_inj in HX as [-> _].
  change (bs "dsa" ++ bs ".public") with (bs "dsa.public") in E7. change (bs "rsa-sign" ++ bs ".public") with (bs "rsa-sign.public") in E8.
  pose proof (exec_only (fun d => d = path_join l (bs "dsa.public")) _ _ _ _ (only_PubKey _ _ _ eq_refl) E7) as [_ F7].
  pose proof (exec_only (fun d => d = path_join l (bs "rsa-sign.public")) _ _ _ _ (only_PubKey _ _ _ eq_refl) E8) as [_ F8].
  destruct HI as [HI|[HI|[]]]; injection HI as <- <- <- <-.
  - apply (pub_step (path_join l (bs "rsa-sign")) _ f7 g (rs 4%nat) RSA_PRIV RSA_PUB ks k1 k2 o1 o2); [|reflexivity | exact E8].
    apply (test_set_same _ g); [|exact TS]. intros n. symmetry. apply F8. apply dirs_distinct. discriminate.
  - assert (PS : public_set f7 (path_join l (bs "dsa.public")) DSA_PUB (rs 5%nat) k1 k2 o1 o2).
    { apply (pub_step (path_join l (bs "dsa")) _ f6 f7 (rs 5%nat) DSA_PRIV DSA_PUB ks k1 k2 o1 o2); [|reflexivity | exact E7].
      apply (test_set_same _ g); [|exact TS]. intros n. rewrite F8, F7 by (apply dirs_distinct; discriminate). reflexivity. }
    change (bs "dsa" ++ bs ".public") with (bs "dsa.public"). destruct PS as (p1 & p2 & A & B & C). exists p1, p2. split; [exact A|]. split; [exact B|].
    intros cl Hc. destruct (C cl Hc) as (ks' & O & N & P & Q). exists ks'. split; [|split; [exact N | split; [exact P | exact Q]]].
    rewrite exec_open in *. apply pair_inj in O as [_ O]. f_equal. apply (open_files_ext cl cl _ None f7 g ks' O); [rewrite P; exact Hc | |]; intros; apply F8; apply dirs_distinct; discriminate.
Qed.
Print Assumptions C61_public_sets.

(** *** It succeeds *)

Lemma assoc_set_file f l n c l' : l' <> l -> assoc str_eqb (set_file f l n c) l' = assoc str_eqb f l'.
Proof. intros H. unfold set_file. destruct (assoc str_eqb f l); [|reflexivity]. rewrite (assoc_set str_eqb str_eqb_eq), (str_eqb_neq l l') by congruence. reflexivity. Qed.
Lemma assoc_del_file f l n l' : l' <> l -> assoc str_eqb (del_file f l n) l' = assoc str_eqb f l'.
Proof. intros H. unfold del_file. destruct (assoc str_eqb f l); [|reflexivity]. rewrite (assoc_set str_eqb str_eqb_eq), (str_eqb_neq l l') by congruence. reflexivity. Qed.
Lemma exec_only_dir {A} w (p : prog A) : forall f g r l, only w p -> exec p f = (g, r) -> ~ w l -> assoc str_eqb g l = assoc str_eqb f l.
Proof.
  induction p as [r0|l0 n k IH|l0 k IH|l0 n k IH|l0 n k IH|l0 n d k IH|l0 n k IH|l0 k IH]; intros f g r l O H NW; cbn [exec only] in *; try (apply (IH _ _ _ _ _ (O _) H NW)).
  - apply pair_inj in H as [<- _]. reflexivity.
  - destruct O as [W O]. destruct (has_dir f l0); [|apply (IH _ _ _ _ _ (O _) H NW)]. rewrite (IH _ _ _ _ _ (O _) H NW). apply assoc_set_file. congruence.
  - destruct O as [W O]. rewrite (IH _ _ _ _ O H NW). unfold put. destruct (file f l0 n); [|reflexivity]. apply assoc_set_file. congruence.
  - destruct O as [W O]. destruct (file f l0 n); [|apply (IH _ _ _ _ _ (O _) H NW)]. rewrite (IH _ _ _ _ _ (O _) H NW). apply assoc_del_file. congruence.
Qed.

(** A directory that holds files only, with different names. *)
Definition plain_dir (f : disk) (l : str) : Prop :=
  exists d, assoc str_eqb f l = Some d /\ NoDup (map fst d) /\ forall n, In n (map fst d) -> has_dir f (path_join l n) = false.

Lemma clean_total l : forall ns f, NoDup ns -> (forall n, In n ns -> file f l n <> None) -> (forall n, In n ns -> has_dir f (path_join l n) = false) ->
  exists g, exec (clean_files l ns) f = (g, Ok tt) /\ (forall n, In n ns -> file g l n = None) /\ (forall n, ~ In n ns -> file g l n = file f l n).
Proof.
  induction ns as [|n ns IH]; intros f ND HF HD; cbn [clean_files exec].
  - exists f. split; [reflexivity|]. split; [intros n [] | reflexivity].
  - rewrite (HD n) by (left; reflexivity). cbn [exec]. destruct (file f l n) as [c|] eqn:EF; [|exfalso; apply (HF n); [left; reflexivity | exact EF]].
    inversion ND as [|? ? NI ND']; subst.
    assert (FD : forall m, file (del_file f l n) l m = if str_eqb n m then None else file f l m) by (intros m; rewrite file_del, str_eqb_refl; reflexivity).
    destruct (IH (del_file f l n) ND') as (g & EG & G1 & G2).
    + intros m Hm. rewrite FD, (str_eqb_neq n m) by (intros ->; contradiction). apply HF. right. exact Hm.
    + intros m Hm. rewrite has_dir_del. apply HD. right. exact Hm.
    + exists g. split; [exact EG|]. split.
      * intros m [<-|Hm]; [rewrite G2, FD, str_eqb_refl by exact NI; reflexivity | apply G1, Hm].
      * intros m Hm. rewrite G2 by (intros C; apply Hm; right; exact C). rewrite FD, (str_eqb_neq n m) by (intros ->; apply Hm; left; reflexivity). reflexivity.
Qed.

(** [Clean] empties a directory, and touches nothing else. *)
Theorem C61_clean : forall f l, plain_dir f l -> exists g, exec (Clean l) f = (g, Ok tt) /\ (forall n, file g l n = None) /\
  (forall l' n, l' <> l -> file g l' n = file f l' n) /\ forall l', has_dir g l' = has_dir f l'.
Proof.
  intros f l (d & E & ND & HD). unfold Clean. cbn [exec]. rewrite E.
  assert (HF : forall n, In n (map fst d) <-> file f l n <> None).
  { intros n. unfold file. rewrite E. split.
    - intros HI C. apply in_map_iff in HI as ([n' c] & <- & HI). apply (assoc_NoDup str_eqb_eq ND) in HI. cbn [fst] in C. congruence.
    - intros HN. destruct (assoc str_eqb d n) as [c|] eqn:EA; [|contradiction HN; reflexivity]. apply (assoc_In str_eqb_eq) in EA. apply (in_map fst) in EA. exact EA. }
  destruct (clean_total l (map fst d) f ND (fun n => proj1 (HF n)) HD) as (g & EG & G1 & G2). exists g. split; [exact EG|].
  destruct (exec_only (fun x => x = l) _ _ _ _ (only_clean _ l eq_refl (map fst d)) EG) as [A B].
  split; [|split; [intros l' n HL; apply B; exact HL | exact A]].
  intros n. destruct (in_dec (list_eq_dec byte_eq_dec) n (map fst d)) as [HI|HI]; [apply G1, HI|]. rewrite G2 by exact HI.
  destruct (file f l n) eqn:EF; [|reflexivity]. exfalso. apply HI, HF. congruence.
Qed.
Print Assumptions C61_clean.

(** The key can answer: it encrypts, or signs, the message. *)
Definition usable (e : env) (p : purpose) (k : key) : Prop :=
  match p with
  | DECRYPT_AND_ENCRYPT => exists o, key_Encrypt e k test_msg = Ok o
  | _ => exists o, key_Sign e k (test_msg ++ VERSION_BYTE) = Ok o
  end.
(** The random generators yield a first key, and then one with another identifier; and if the keys
    are not symmetric, they work. *)
Definition good_luck (r : luck) (p : purpose) (t : ktype) : Prop :=
  lucky r /\ lk_ds1 r <> [] /\
  (forall d1 k1, In d1 (lk_ds1 r) -> GenKey d1 t (Some (default_size t)) = Ok k1 ->
     exists d2 k2, In d2 (lk_ds2 r) /\ GenKey d2 t (Some (default_size t)) = Ok k2 /\ key_hash_id k2 <> key_hash_id k1) /\
  (t = RSA_PRIV \/ t = DSA_PRIV ->
     (forall d k, In d (lk_ds1 r) -> GenKey d t (Some (default_size t)) = Ok k -> usable (lk_use1 r) p k) /\
     (forall d k, In d (lk_ds2 r) -> GenKey d t (Some (default_size t)) = Ok k -> usable (lk_use2 r) p k)).

Lemma aes_generated d k : GenKey d AES (Some (default_size AES)) = Ok k -> exists a kb hb, k = KAes a /\ aes_material a kb hb /\ aes_size_ok kb.
Proof.
  unfold GenKey. cbn [negb IsValidSize]. intros H. destruct (negb _); [discriminate|]. apply bind_Ok in H as (a & HA & H). apply Ok_inj in H as <-.
  destruct (C17_generated_keys (d_tape d) (default_size AES) a) as (_ & M & S); [cbn; auto | exact HA |]. eexists a, _, _. split; [reflexivity|]. split; [exact M | exact S].
Qed.

Lemma symmetric_usable e p a t d k : implied p a t -> t = AES \/ t = HMAC_SHA1 -> GenKey d t (Some (default_size t)) = Ok k -> usable e p k.
Proof.
  intros HI HT HG. destruct HI; try (destruct HT; discriminate).
  - cbn [usable]. unfold GenKey in HG. destruct (negb _); [discriminate|]. apply Ok_inj in HG as <-. cbn [key_Sign]. unfold HmacKey_Sign, hmac_bytes, HmacKey_Generate.
    cbn [hk_string HmacKey_new]. rewrite base64_roundtrip_u. eexists. reflexivity.
  - destruct (aes_generated d k HG) as (b & kb & hb & -> & M & S). cbn [usable key_Encrypt]. destruct (C17_aes_roundtrip (e_lib e) b kb hb (e_tape e) test_msg M S) as (c & -> & _). eexists. reflexivity.
Qed.

(** The crypter can encrypt. *)
Definition writes (c : option keyset) : Prop :=
  match c with None => True | Some enc => reached enc /\ exists n k kb hb, ring_of enc n = Some (PRIMARY, KAes k) /\ aes_material k kb hb /\ aes_size_ok kb end.

Lemma add_total d c ks ds es f : open_keyset GenericKeyczar (disk_reader f d c) = Ok ks -> draws_ok (OpAdd ds PRIMARY None) -> writes c -> is_public (ks_type ks) = false ->
  (exists dr k, In dr ds /\ GenKey dr (ks_type ks) (Some (default_size (ks_type ks))) = Ok k /\ forall m s k', ring_of ks m = Some (s, k') -> key_hash_id k' <> key_hash_id k) ->
  exists g, exec (AddKeyCmd (Some d) PRIMARY c (-1) ds es) f = (g, Ok tt).
Proof.
  intros HO HD W PU (dr & k & HI & HG & HU). pose proof (made_open _ _ _ HO) as M. pose proof (made_inv _ M) as I. pose proof (opened_dir _ _ _ _ _ HO) as HDir.
  rewrite (exec_add d c PRIMARY (-1) ds es f ks HO). destruct (add_loaded _ _ ks ds PRIMARY (-1) HO HD) as [(ks' & r' & EA & RR & RE)|(ks' & e & EA & RF)]; rewrite EA.
  - set (o := OpAdd ds PRIMARY (if -1 =? -1 then None else Some (-1))). assert (ES : fst (step ks o) = ks') by (cbn [step o]; rewrite EA; reflexivity).
    assert (M' : made ks') by (rewrite <- ES, step_run; apply made_run; [exact M | repeat constructor; exact HD]).
    destruct c as [enc|]; [|apply WriteSet_total; [exact HDir | apply made_wf, M']].
    destruct W as (RE' & n & a & kb & hb & HR & HM & HS). apply (C43_writing_with_aes_succeeds ks' d enc es f n a kb hb M' HDir RE' HR HM HS).
  - exfalso. cbn [refused] in RF. change (size_of (ks_type ks) (-1)) with (default_size (ks_type ks)) in RF. destruct RF as [C|[C|C]].
    + apply C. destruct (ks_type ks); cbn; tauto.
    + congruence.
    + destruct (C dr HI) as (k0 & m & s & k' & HG' & HR & HE). rewrite HG in HG'. apply Ok_inj in HG' as <-. apply (HU m s k' HR HE).
Qed.

Lemma use_total p d n c e f ks m k : open_keyset GenericKeyczar (disk_reader f d c) = Ok ks -> ks_purpose ks = p -> p = DECRYPT_AND_ENCRYPT \/ p = SIGN_AND_VERIFY ->
  ring_of ks m = Some (PRIMARY, k) -> usable e p k -> exists g, exec (UseKey p d n c e) f = (g, Ok tt).
Proof.
  intros HO HP PP HR HU. pose proof (opened_dir _ _ _ _ _ HO) as HD. pose proof (made_open _ _ _ HO) as M. pose proof (made_inv _ M) as I.
  unfold UseKey. rewrite exec_bind. assert (E : exec (CreateReader d) f = (f, Ok IsFileReader)) by (cbn; rewrite HD; reflexivity). rewrite E. rewrite exec_bind.
  assert (OP : forall cl, In p (accepts cl) -> open_keyset cl (disk_reader f d c) = Ok ks).
  { intros cl Hc. apply (open_files_ext GenericKeyczar cl d c f f ks HO); [rewrite HP; exact Hc | reflexivity | reflexivity]. }
  pose proof (proj2 (primary_key_spec ks k I) (ex_intro _ m HR)) as PK.
  destruct PP as [-> | ->]; cbn [usable] in HU; destruct HU as (o & HU).
  - rewrite exec_bind, exec_open, (OP Crypter) by (cbn; auto). rewrite exec_pure. unfold Encrypt. rewrite PK. cbn [bind]. rewrite HU. cbn [bind apply_codec b64_encoder].
    match goal with |- context[exec (WriteFile ?s _ _) _] => destruct (WriteFile_ok f s d n HD) as (g & E1 & _) end. exists g. exact E1.
  - rewrite exec_bind, exec_open, (OP Signer) by (cbn; auto). rewrite exec_pure.
    destruct (signer_primary ks k) as (_ & id & _ & _ & HH); [split; [apply made_reached, M | exists m; exact HR]|].
    unfold Sign, InternalSign. rewrite PK. cbn [bind]. rewrite HH. cbn [bind PackByteArray app]. rewrite HU. cbn [bind apply_codec b64_encoder].
    match goal with |- context[exec (WriteFile ?s _ _) _] => destruct (WriteFile_ok f s d n HD) as (g & E1 & _) end. exists g. exact E1.
Qed.

Lemma gen_set_total l name p a cr c t r f : good_luck r p t -> implied p a t -> crypter_at f l cr c -> reads_back c c -> writes c ->
  plain_dir f (path_join l name) -> exists g, exec (gen_set l (name, p, a, cr) r) f = (g, Ok tt).
Proof.
  intros ([L1 L2] & NE & LK & LU) HI HC RB W PD. cbn [gen_set]. set (d := path_join l name) in *. rewrite exec_bind.
  assert (PP : p = DECRYPT_AND_ENCRYPT \/ p = SIGN_AND_VERIFY) by (destruct HI; auto).
  assert (PT : is_public t = false) by (destruct HI; reflexivity).
  assert (US : forall dr k, GenKey dr t (Some (default_size t)) = Ok k -> (In dr (lk_ds1 r) -> usable (lk_use1 r) p k) /\ (In dr (lk_ds2 r) -> usable (lk_use2 r) p k)).
  { intros dr k HG. destruct t; try discriminate PT.
    - split; intros _; apply (symmetric_usable _ p a AES dr k HI); auto.
    - split; intros _; apply (symmetric_usable _ p a HMAC_SHA1 dr k HI); auto.
    - destruct LU as [U1 U2]; [right; reflexivity|]. split; intros H; [apply (U1 dr) | apply (U2 dr)]; assumption.
    - destruct LU as [U1 U2]; [left; reflexivity|]. split; intros H; [apply (U1 dr) | apply (U2 dr)]; assumption. }
  assert (EC : exec (match cr with Some c => do ks <- CreateCrypter (path_join l c); Done (Ok (Some ks)) | None => Done (Ok None) end) f = (f, Ok c)).
  { destruct cr as [x|], c as [ks|]; cbn [crypter_at] in HC; try contradiction; [|reflexivity]. rewrite exec_bind. unfold CreateCrypter. rewrite HC. reflexivity. }
  rewrite EC. rewrite exec_bind. destruct (C61_clean f d PD) as (f1 & -> & CL & _ & CD).
  assert (HD : has_dir f1 d = true) by (rewrite CD; destruct PD as (x & E & _); unfold has_dir; rewrite E; reflexivity).
  rewrite exec_bind. destruct (C46_create_fresh f1 d (tx "Test") p a t HD (CL _) (tx_ok _) HI) as (f2 & s2 & E2 & _ & ks0 & L0 & N0 & P0 & T0 & _ & V0 & R0). rewrite E2.
  pose proof (loadable_open _ _ _ L0) as O0.
  assert (O0' : open_keyset GenericKeyczar (disk_reader f2 d c) = Ok ks0).
  { apply (open_ext GenericKeyczar _ (disk_reader f2 d None)); [exact O0 | rewrite !disk_meta; reflexivity | destruct c; [left | right]; reflexivity | apply made_acceptable, (made_open _ _ _ O0)|].
    intros v Hv. exfalso. pose proof O0 as O1. apply open_ok in O1 as (s & m & ls & _ & _ & _ & _ & _ & _ & _ & _ & _ & EO & EM & _).
    assert (E0 : ks_mvers ks0 = []) by (unfold ks_meta in V0; cbn [m_versions] in V0; destruct (ks_mvers ks0); [reflexivity | discriminate]).
    rewrite EM in E0. rewrite EO in Hv. unfold meta_versions in *. destruct (m_versions m); [destruct Hv | discriminate]. }
  rewrite exec_bind.
  assert (exists f3, exec (AddKeyCmd (Some d) PRIMARY c (-1) (lk_ds1 r) (lk_es1 r)) f2 = (f3, Ok tt)) as (f3 & E3).
  { apply (add_total d c ks0 _ _ _ O0' L1 W); rewrite T0; [exact PT|]. destruct (lk_ds1 r) as [|dr ds]; [contradiction|].
    destruct (GenKey dr t (Some (default_size t))) as [k|e] eqn:HG.
    - exists dr, k. split; [left; reflexivity|]. split; [exact HG|]. intros m s k' HR. rewrite R0 in HR. discriminate.
    - exfalso. unfold GenKey in HG. destruct t; try discriminate; discriminate PT. }
  rewrite E3. assert (HN0 : text_ok (ks_name ks0)) by (rewrite N0; apply tx_ok).
  destruct (add_step d c ks0 _ _ f2 f3 O0' HN0 L1 RB E3) as (ks1 & r1 & O1 & N1 & P1 & T1 & _ & RC1 & RE1 & _).
  inversion RC1 as [s size ds0 dr1 n1 k1 _ HI1 HG1 HNN1 _ Q1 Q2| | |]; subst s size ds0 r1. rewrite T0 in HG1.
  assert (n1 = 1) by (destruct HNN1 as (_ & _ & [H|(x & H)]); [exact H | rewrite R0 in H; discriminate]). subst n1. clear HNN1 RC1.
  assert (R1 : forall n, ring_of ks1 n = if n =? 1 then Some (PRIMARY, k1) else None).
  { intros n. rewrite RE1. unfold ring_add. rewrite R0. reflexivity. }
  assert (P1' : ks_purpose ks1 = p) by congruence. assert (R11 : ring_of ks1 1 = Some (PRIMARY, k1)) by (rewrite R1; reflexivity).
  rewrite exec_bind. destruct (use_total p d (bs "1.out") c (lk_use1 r) f3 ks1 1 k1 O1 P1' PP R11 (proj1 (US dr1 k1 HG1) HI1)) as (f4 & E4). rewrite E4.
  destruct (use_step p d _ c _ f3 f4 ks1 O1 P1' PP E4) as (o1 & S1 & _).
  assert (O1' : open_keyset GenericKeyczar (disk_reader f4 d c) = Ok ks1).
  { apply (open_files_ext GenericKeyczar _ d c f3); [exact O1 | apply made_acceptable, (made_open _ _ _ O1) | apply (set_to_other _ _ _ _ _ _ _ S1); right; discriminate|].
    intros n. apply (set_to_other _ _ _ _ _ _ _ S1). right. apply out_not_key. }
  destruct (LK dr1 k1 HI1 HG1) as (dr2 & k2 & HI2 & HG2 & HH2).
  rewrite exec_bind.
  assert (exists f5, exec (AddKeyCmd (Some d) PRIMARY c (-1) (lk_ds2 r) (lk_es2 r)) f4 = (f5, Ok tt)) as (f5 & E5).
  { apply (add_total d c ks1 _ _ _ O1' L2 W); rewrite T1, T0; [exact PT|]. exists dr2, k2. split; [exact HI2|]. split; [exact HG2|].
    intros m s k' HR. rewrite R1 in HR. destruct (m =? 1); [|discriminate]. injection HR as <- <-. congruence. }
  rewrite E5. assert (HN1 : text_ok (ks_name ks1)) by (rewrite N1; exact HN0).
  destruct (add_step d c ks1 _ _ f4 f5 O1' HN1 L2 RB E5) as (ks & r2 & O2 & N2 & P2 & T2 & _ & RC2 & RE2 & _).
  inversion RC2 as [s size ds0 dr3 n2 k3 _ HI3 HG3 HNN2 HU2 Q1 Q2| | |]; subst s size ds0 r2. rewrite T1, T0 in HG3.
  assert (R2 : ring_of ks n2 = Some (PRIMARY, k3)) by (rewrite RE2; unfold ring_add; rewrite Z.eqb_refl; reflexivity).
  assert (P2' : ks_purpose ks = p) by congruence.
  apply (use_total p d (bs "2.out") c (lk_use2 r) f5 ks n2 k3 O2 P2' PP R2 (proj2 (US dr3 k3 HG3) HI3)).
Qed.

Lemma plain_same f g d : assoc str_eqb g d = assoc str_eqb f d -> (forall x, has_dir g x = has_dir f x) -> plain_dir f d -> plain_dir g d.
Proof. intros E H (x & A & B & C). exists x. rewrite E. split; [exact A|]. split; [exact B|]. intros n Hn. rewrite H. apply C, Hn. Qed.
Lemma gen_keeps_plain l x r f g name : exec (gen_set l x r) f = (g, Ok tt) -> name <> fst (fst (fst x)) -> plain_dir f (path_join l name) -> plain_dir g (path_join l name).
Proof.
  intros H N P. destruct x as [[[nm p] a] cr]. cbn [fst] in N. pose proof (only_gen_set (fun d => d = path_join l nm) l nm p a cr r eq_refl) as O.
  apply (plain_same f g); [apply (exec_only_dir _ _ _ _ _ _ O H); intros C; apply path_join_inj in C; contradiction | apply (exec_only _ _ _ _ _ O H) | exact P].
Qed.
Lemma gen_keeps_dirs l x r f g : exec (gen_set l x r) f = (g, Ok tt) -> forall d, has_dir g d = has_dir f d.
Proof. intros H. destruct x as [[[nm p] a] cr]. apply (exec_only _ _ _ _ _ (only_gen_set (fun d => d = path_join l nm) l nm p a cr r eq_refl) H). Qed.
Lemma gen_keeps_set l x r f g name r' c p t ks k1 k2 o1 o2 : exec (gen_set l x r) f = (g, Ok tt) -> name <> fst (fst (fst x)) ->
  test_set r' f (path_join l name) c p t ks k1 k2 o1 o2 -> test_set r' g (path_join l name) c p t ks k1 k2 o1 o2.
Proof.
  intros H N. destruct x as [[[nm q] a] cr]. cbn [fst] in N. apply test_set_same. intros n.
  apply (exec_only _ _ _ _ _ (only_gen_set (fun d => d = path_join l nm) l nm q a cr r eq_refl) H). intros C. apply path_join_inj in C. contradiction.
Qed.

Lemma pub_total l dest f r t pt ks k1 k2 o1 o2 : test_set r f l None SIGN_AND_VERIFY t ks k1 k2 o1 o2 -> exported_as t SIGN_AND_VERIFY = Some (pt, VERIFY) ->
  has_dir f dest = true -> exists g, exec (PubKeyCmd (Some l) (Some dest)) f = (g, Ok tt).
Proof.
  intros (A & N & P & T & _) EX HD. rewrite <- T, <- P in EX. assert (HN : text_ok (ks_name ks)) by (rewrite N; apply tx_ok).
  destruct (C45_pubkey_command l dest f ks pt VERIFY (A GenericKeyczar ltac:(cbn; tauto)) HN HD EX) as (g & E & _). exists g. exact E.
Qed.

(** When the directories exist and hold only files, it succeeds. *)
Theorem C61_succeeds : forall rs l f,
  (forall i name p t cr, nth_error test_sets i = Some (name, p, t, cr) -> good_luck (rs i) p t /\ plain_dir f (path_join l name)) ->
  (forall name, In name test_dirs -> has_dir f (path_join l name) = true) ->
  exists g, exec (GenKeySet rs (Some l)) f = (g, Ok tt).
Proof.
  intros rs l f HS HD.
  destruct (HS 0%nat _ _ _ _ eq_refl) as [L0 P0]. destruct (HS 1%nat _ _ _ _ eq_refl) as [L1 P1]. destruct (HS 2%nat _ _ _ _ eq_refl) as [L2 P2].
  destruct (HS 3%nat _ _ _ _ eq_refl) as [L3 P3]. destruct (HS 4%nat _ _ _ _ eq_refl) as [L4 P4]. destruct (HS 5%nat _ _ _ _ eq_refl) as [L5 P5]. clear HS.
  assert (HP1 : has_dir f (path_join l (bs "dsa.public")) = true) by (apply HD; cbn; tauto).
  assert (HP2 : has_dir f (path_join l (bs "rsa-sign.public")) = true) by (apply HD; cbn; tauto).
  assert (HA : has_dir f (path_join l (bs "aes")) = true) by (apply HD; cbn; tauto). clear HD.
  assert (IA : implied DECRYPT_AND_ENCRYPT None AES) by constructor. assert (IH : implied SIGN_AND_VERIFY None HMAC_SHA1) by constructor.
  assert (IR : implied DECRYPT_AND_ENCRYPT (Some (bs "rsa")) RSA_PRIV) by constructor. assert (IS : implied SIGN_AND_VERIFY (Some (bs "rsa")) RSA_PRIV) by (constructor; reflexivity).
  assert (ID : implied SIGN_AND_VERIFY (Some (bs "dsa")) DSA_PRIV) by (constructor; discriminate).
  cbn [GenKeySet]. rewrite exec_bind. unfold KEYSETS. cbn [gen_sets].
  rewrite exec_bind. destruct (gen_set_total l (bs "aes") _ _ None None _ _ f L0 IA Logic.I Logic.I Logic.I P0) as (f1 & E1). rewrite E1.
  destruct (gen_set_ok l _ _ _ _ _ _ _ _ (proj1 L0) IA E1) as (c1 & C1 & T1). destruct c1; [contradiction|]. destruct (T1 Logic.I) as (ks1 & k11 & k12 & o11 & o12 & TS1). clear T1 C1.
  apply (gen_keeps_plain _ _ _ _ _ _ E1) in P1; [|discriminate]. apply (gen_keeps_plain _ _ _ _ _ _ E1) in P2; [|discriminate]. apply (gen_keeps_plain _ _ _ _ _ _ E1) in P3; [|discriminate].
  apply (gen_keeps_plain _ _ _ _ _ _ E1) in P4; [|discriminate]. apply (gen_keeps_plain _ _ _ _ _ _ E1) in P5; [|discriminate].
  rewrite <- (gen_keeps_dirs _ _ _ _ _ E1) in HP1, HP2, HA.
  destruct (test_set_distinct _ _ _ _ _ _ _ _ _ _ _ TS1 Crypter (or_introl eq_refl)) as [M1 DI1].
  assert (RB : reads_back (Some ks1) (Some ks1)).
  { intros e s ct. apply C43_aes_sets_decrypt_what_they_encrypt; [apply made_reached, M1 | exact DI1 | apply TS1]. }
  assert (W : writes (Some ks1)).
  { split; [apply made_reached, M1|]. destruct TS1 as (_ & _ & _ & _ & _ & R2 & _ & _ & (dr & _ & HG) & _). destruct (aes_generated dr k12 HG) as (a & kb & hb & -> & HM & HS).
    exists 2, a, kb, hb. rewrite R2. split; [reflexivity|]. split; assumption. }
  assert (CA : crypter_at f1 l (Some (bs "aes")) (Some ks1)).
  { pose proof (proj1 TS1 Crypter (or_introl eq_refl)) as O. rewrite exec_open in O. cbn [crypter_at]. rewrite exec_location, HA. exact O. }
  rewrite exec_bind. destruct (gen_set_total l (bs "aes-crypted") _ _ (Some (bs "aes")) (Some ks1) _ _ f1 L1 IA CA RB W P1) as (f2 & E2). rewrite E2.
  apply (gen_keeps_plain _ _ _ _ _ _ E2) in P2; [|discriminate]. apply (gen_keeps_plain _ _ _ _ _ _ E2) in P3; [|discriminate].
  apply (gen_keeps_plain _ _ _ _ _ _ E2) in P4; [|discriminate]. apply (gen_keeps_plain _ _ _ _ _ _ E2) in P5; [|discriminate].
  rewrite <- (gen_keeps_dirs _ _ _ _ _ E2) in HP1, HP2.
  rewrite exec_bind. destruct (gen_set_total l (bs "hmac") _ _ None None _ _ f2 L2 IH Logic.I Logic.I Logic.I P2) as (f3 & E3). rewrite E3.
  apply (gen_keeps_plain _ _ _ _ _ _ E3) in P3; [|discriminate].
  apply (gen_keeps_plain _ _ _ _ _ _ E3) in P4; [|discriminate]. apply (gen_keeps_plain _ _ _ _ _ _ E3) in P5; [|discriminate].
  rewrite <- (gen_keeps_dirs _ _ _ _ _ E3) in HP1, HP2.
  rewrite exec_bind. destruct (gen_set_total l (bs "rsa") _ _ None None _ _ f3 L3 IR Logic.I Logic.I Logic.I P3) as (f4 & E4). rewrite E4.
  apply (gen_keeps_plain _ _ _ _ _ _ E4) in P4; [|discriminate]. apply (gen_keeps_plain _ _ _ _ _ _ E4) in P5; [|discriminate].
  rewrite <- (gen_keeps_dirs _ _ _ _ _ E4) in HP1, HP2.
  rewrite exec_bind. destruct (gen_set_total l (bs "rsa-sign") _ _ None None _ _ f4 L4 IS Logic.I Logic.I Logic.I P4) as (f5 & E5). rewrite E5.
  destruct (gen_set_ok l _ _ _ _ _ _ _ _ (proj1 L4) IS E5) as (c5 & C5 & T5). destruct c5; [contradiction|]. destruct (T5 Logic.I) as (ks5 & k51 & k52 & o51 & o52 & TS5). clear T5 C5.
  apply (gen_keeps_plain _ _ _ _ _ _ E5) in P5; [|discriminate]. rewrite <- (gen_keeps_dirs _ _ _ _ _ E5) in HP1, HP2.
  rewrite exec_bind. destruct (gen_set_total l (bs "dsa") _ _ None None _ _ f5 L5 ID Logic.I Logic.I Logic.I P5) as (f6 & E6). rewrite E6.
  destruct (gen_set_ok l _ _ _ _ _ _ _ _ (proj1 L5) ID E6) as (c6 & C6 & T6). destruct c6; [contradiction|]. destruct (T6 Logic.I) as (ks6 & k61 & k62 & o61 & o62 & TS6). clear T6 C6.
  apply (gen_keeps_set _ _ _ _ _ _ _ _ _ _ _ _ _ _ _ E6) in TS5; [|discriminate]. rewrite <- (gen_keeps_dirs _ _ _ _ _ E6) in HP1, HP2. cbn [exec].
  cbn [export_sets]. change (bs "dsa" ++ bs ".public") with (bs "dsa.public"). change (bs "rsa-sign" ++ bs ".public") with (bs "rsa-sign.public").
  rewrite exec_bind. destruct (pub_total _ _ _ _ _ _ _ _ _ _ _ TS6 eq_refl HP1) as (f7 & E7). rewrite E7.
  destruct (exec_only (fun d => d = path_join l (bs "dsa.public")) _ _ _ _ (only_PubKey _ _ _ eq_refl) E7) as [D7 F7].
  apply (test_set_same _ _ f7) in TS5; [|intros n; apply F7, dirs_distinct; discriminate]. rewrite <- D7 in HP2.
  rewrite exec_bind. destruct (pub_total _ _ _ _ _ _ _ _ _ _ _ TS5 eq_refl HP2) as (f8 & E8). rewrite E8. exists f8. reflexivity.
Qed.
Print Assumptions C61_succeeds.

Theorem C61_no_location : forall rs f, exec (GenKeySet rs None) f = (f, Raise AttributeError).
Proof. reflexivity. Qed.
Print Assumptions C61_no_location.

(** The command line runs it, whatever other flags are given. *)
Theorem C61_command : forall rs args ds es, Forall arg_ok args ->
  main (GenKeySet rs) (bs "genkey" :: map arg_str args) ds es = GenKeySet rs (value LOCATION args).
Proof.
  intros rs args ds es HA. destruct (C50_flags args HA) as (fl & EP & EV). unfold main. change (GetCommand (bs "genkey")) with (Ok GENKEY).
  rewrite parse_other by (right; intros rest C; discriminate C). rewrite EP. cbn [pure pbind]. destruct (int_flags fl). rewrite EV. reflexivity.
Qed.
Print Assumptions C61_command.

(** *** A case *)
Definition demo_rsa (n : Z) : rsa_nums := MkRsaNums (MkRsaPubNums n 1) 1 3 5 7.
Definition demo_dsa (y x : Z) : dsa_nums := MkDsaNums (MkDsaPubNums y 4 23 11) x.
Definition demo_env : env := MkEnv PyCrypto (fun _ => x07) 3.
Definition demo_luck (n1 n2 : Z) : luck :=
  MkLuck [MkDraw (fun _ => x01) (demo_rsa n1) (demo_dsa 18 3)] (fun _ => demo_env) demo_env
         [MkDraw (fun _ => x02) (demo_rsa n2) (demo_dsa 3 4)] (fun _ => demo_env) demo_env.
Definition demo_rs (i : nat) : luck := if Nat.eqb i 4 then demo_luck (2 ^ 4096 - 1) (2 ^ 4096) else demo_luck (2 ^ 600 - 1) (2 ^ 600).
Definition demo_disk : disk :=
  (path_join (bs "/t") (bs "aes"), [(bs "meta", bs "old"); (bs "7", bs "old key")]) :: map (fun n => (path_join (bs "/t") n, [])) (tl test_dirs).

Lemma demo_good r p t k1 k2 : r = demo_luck (2 ^ 4096 - 1) (2 ^ 4096) \/ r = demo_luck (2 ^ 600 - 1) (2 ^ 600) ->
  match lk_ds1 r with d :: _ => GenKey d t (Some (default_size t)) = Ok k1 | [] => False end -> match lk_ds2 r with d :: _ => GenKey d t (Some (default_size t)) = Ok k2 | [] => False end ->
  key_hash_id k2 <> key_hash_id k1 -> (t = RSA_PRIV \/ t = DSA_PRIV -> usable demo_env p k1 /\ usable demo_env p k2) -> good_luck r p t.
Proof.
  intros HR G1 G2 HH HU. assert (exists n1 n2, 0 <= n1 /\ 0 <= n2 /\ r = demo_luck n1 n2) as (n1 & n2 & P1 & P2 & ->).
  { destruct HR as [-> | ->]; eexists _, _; (split; [|split; [|reflexivity]]); [apply Z.lt_le_pred | | apply Z.lt_le_pred |]; try apply Z.pow_nonneg; try (apply Z.pow_pos_nonneg; lia); lia. }
  clear HR. cbn [lk_ds1 lk_ds2 demo_luck] in *. split; [|split; [discriminate|split]].
  - split; (constructor; [|constructor]); (split; [repeat split; try assumption; cbn; lia | repeat split; cbn; lia]).
  - intros d k [<-|[]] HG. rewrite G1 in HG. apply Ok_inj in HG as <-. exists (MkDraw (fun _ => x02) (demo_rsa n2) (demo_dsa 3 4)), k2. split; [left; reflexivity|]. split; [exact G2 | exact HH].
  - intros HT. destruct (HU HT) as [U1 U2]. split; intros d k [<-|[]] HG; [rewrite G1 in HG | rewrite G2 in HG]; apply Ok_inj in HG as <-; assumption.
Qed.

Example C61_case : exists g, exec (GenKeySet demo_rs (Some (bs "/t"))) demo_disk = (g, Ok tt).
Proof.
  apply C61_succeeds.
  - intros i name p t cr HN. split.
    + destruct i as [|[|[|[|[|[|i]]]]]]; cbn [nth_error test_sets] in HN; [| | | | | | destruct i; discriminate HN]; injection HN as <- <- <- <-; unfold demo_rs; cbn [Nat.eqb];
      (eapply demo_good; [auto | reflexivity | reflexivity | vm_compute; discriminate | intros [H|H]; try discriminate H; split; cbn [usable]; eexists; vm_compute; reflexivity]).
    + destruct i as [|[|[|[|[|[|i]]]]]]; cbn [nth_error test_sets] in HN; [| | | | | | destruct i; discriminate HN]; injection HN as <- <- <- <-; (eexists; split; [vm_compute; reflexivity|]; split;
      [repeat constructor; cbn; intuition discriminate | cbn; intros n; intuition (subst; vm_compute; reflexivity)]).
  - intros name H. cbn in H. decompose [or] H; subst; try contradiction; vm_compute; reflexivity.
Qed.

(** ** C62 *)

(** REFUTED that existing keys are safe: the command empties the directories before it makes the
    new sets.  So it can die when a set is gone and nothing has replaced it; no class then
    loads anything from there, with any crypter. *)
Theorem C62_keys_lost_refuted : forall rs l f, plain_dir f (path_join l (bs "aes")) ->
  exists g, during f (GenKeySet rs (Some l)) g /\ (forall n, file g (path_join l (bs "aes")) n = None) /\
  forall c cr, exists e, exec (open_files c (path_join l (bs "aes")) cr) g = (g, Raise e).
Proof.
  intros rs l f PD. destruct (C61_clean f _ PD) as (g & E & A & _). exists g. split; [|split; [exact A|]].
  - cbn [GenKeySet]. apply during_bind_l. unfold KEYSETS. cbn [gen_sets]. apply during_bind_l. unfold gen_set.
    apply (during_bind_r _ _ f f None); [reflexivity|]. apply during_bind_l. apply (during_end _ _ _ _ E).
  - intros c cr. rewrite exec_open. unfold open_keyset. rewrite disk_meta, A. eexists. reflexivity.
Qed.
Print Assumptions C62_keys_lost_refuted.

(** It also loses them when it fails cleanly: without the directory of the second set it ends with an
    error, and the first set has been replaced by a new one. *)
Theorem C62_lost_by_a_failing_run_refuted : forall rs l f, plain_dir f (path_join l (bs "aes")) -> good_luck (rs 0%nat) DECRYPT_AND_ENCRYPT AES ->
  has_dir f (path_join l (bs "aes-crypted")) = false ->
  exists g ks k1 k2 o1 o2, exec (GenKeySet rs (Some l)) f = (g, Raise IOError) /\
    test_set (rs 0%nat) g (path_join l (bs "aes")) None DECRYPT_AND_ENCRYPT AES ks k1 k2 o1 o2.
Proof.
  intros rs l f PD L0 ND. assert (IA : implied DECRYPT_AND_ENCRYPT None AES) by constructor.
  destruct (gen_set_total l (bs "aes") _ _ None None _ _ f L0 IA Logic.I Logic.I Logic.I PD) as (f1 & E1).
  destruct (gen_set_ok l _ _ _ _ _ _ _ _ (proj1 L0) IA E1) as (c1 & C1 & T1). destruct c1; [contradiction|]. destruct (T1 Logic.I) as (ks1 & k11 & k12 & o11 & o12 & TS1).
  exists f1, ks1, k11, k12, o11, o12. split; [|exact TS1]. cbn [GenKeySet]. rewrite exec_bind. unfold KEYSETS. cbn [gen_sets]. rewrite exec_bind, E1. rewrite exec_bind.
  assert (HA : has_dir f1 (path_join l (bs "aes")) = true) by (rewrite (gen_keeps_dirs _ _ _ _ _ E1); destruct PD as (x & E & _); unfold has_dir; rewrite E; reflexivity).
  rewrite <- (gen_keeps_dirs _ _ _ _ _ E1) in ND.
  assert (EX : exec (gen_set l (bs "aes-crypted", DECRYPT_AND_ENCRYPT, None, Some (bs "aes")) (rs 1%nat)) f1 = (f1, Raise IOError)).
  { cbn [gen_set]. rewrite exec_bind, exec_bind. unfold CreateCrypter. rewrite exec_location, HA.
    pose proof (proj1 TS1 Crypter (or_introl eq_refl)) as O. rewrite exec_open in O. apply pair_inj in O as [_ O]. rewrite O. cbn [exec].
    rewrite exec_bind. unfold Clean at 1. cbn [exec]. unfold has_dir in ND. destruct (assoc str_eqb f1 (path_join l (bs "aes-crypted"))); [discriminate | reflexivity]. }
  rewrite EX. reflexivity.
Qed.
Print Assumptions C62_lost_by_a_failing_run_refuted.

Example C62_case : plain_dir demo_disk (path_join (bs "/t") (bs "aes")) /\ good_luck (demo_rs 0) DECRYPT_AND_ENCRYPT AES /\
  exists f, plain_dir f (path_join (bs "/t") (bs "aes")) /\ has_dir f (path_join (bs "/t") (bs "aes-crypted")) = false.
Proof.
  assert (P : forall f, f = demo_disk \/ f = firstn 1 demo_disk -> plain_dir f (path_join (bs "/t") (bs "aes"))).
  { intros f [-> | ->]; (eexists; split; [vm_compute; reflexivity|]; split; [repeat constructor; cbn; intuition discriminate | cbn; intros n; intuition (subst; vm_compute; reflexivity)]). }
  split; [apply P; left; reflexivity|]. split.
  - unfold demo_rs; cbn [Nat.eqb]. eapply demo_good; [auto | reflexivity | reflexivity | vm_compute; discriminate | intros [H|H]; discriminate H].
  - exists (firstn 1 demo_disk). split; [apply P; right; reflexivity | vm_compute; reflexivity].
Qed.
