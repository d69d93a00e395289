(** * Props_Threads: one object used by several threads (C90). *)
From Coq Require Import Strings.String.
From Coq Require Import List ZArith NArith Bool Lia ZifyBool ZifyNat ZifyN.
From Coq.Init Require Import Byte.
From Verif Require Import PyBase PyFacts Util UtilFacts Base64 Json JsonFacts KeyInfo KeyData SymKeys AsymKeys Keys Keyczar KeyRing KeyczarFacts Disk DiskFacts
  Props_Keyset Props_Sign Threads.
Import ListNotations.
Local Open Scope Z_scope.
Ltac Zify.zify_post_hook ::= idtac.

(** ** Specification *)

(** The calls that use a set, with their arguments, and what they give. *)
Inductive call :=
| CEncrypt (e : env) (m : str) (d : codec) | CDecrypt (c : str) (d : codec)
| CSign (e : env) (m : str) (d : codec) | CVerify (m s : str) (d : codec)
| CAttachedSign (e : env) (m : str) (n : option str) (d : codec) | CAttachedVerify (s : str) (n : option str) (d : codec)
| CUnversionedSign (e : env) (m : str) (d : codec) | CUnversionedVerify (m s : str) (d : codec).

Inductive answer := AText (s : str) | ATruth (b : bool) | AData (o : option str).

Definition res_map {A B} (f : A -> B) (r : res A) : res B := match r with Ok a => Ok (f a) | Raise e => Raise e end.

(** What the call gives if nothing else happens (Keyczar.v). *)
Definition gives (ks : keyset) (c : call) : res answer :=
  match c with
  | CEncrypt e m d => res_map AText (Encrypt e ks m d)
  | CDecrypt c d => res_map AText (Decrypt ks c d)
  | CSign e m d => res_map AText (Sign e ks m d)
  | CVerify m s d => res_map ATruth (Verify ks m s d)
  | CAttachedSign e m n d => res_map AText (AttachedSign e ks m n d)
  | CAttachedVerify s n d => res_map AData (AttachedVerify ks s n d)
  | CUnversionedSign e m d => res_map AText (UnversionedSign e ks m d)
  | CUnversionedVerify m s d => res_map ATruth (UnversionedVerify ks m s d)
  end.

(** The thread that makes the call. *)
Fixpoint tmap {A B} (f : A -> B) (t : thread A) : thread B :=
  match t with
  | Finished r => Finished (res_map f r)
  | Access g => Access (fun ks => let (ks', t') := g ks in (ks', tmap f t'))
  end.

Definition calling (c : call) : thread answer :=
  match c with
  | CEncrypt e m d => tmap AText (Encrypt_t e m d)
  | CDecrypt c d => tmap AText (Decrypt_t c d)
  | CSign e m d => tmap AText (Sign_t e m d)
  | CVerify m s d => tmap ATruth (Verify_t m s d)
  | CAttachedSign e m n d => tmap AText (AttachedSign_t e m n d)
  | CAttachedVerify s n d => tmap AData (AttachedVerify_t s n d)
  | CUnversionedSign e m d => tmap AText (UnversionedSign_t e m d)
  | CUnversionedVerify m s d => tmap ATruth (UnversionedVerify_t m s d)
  end.

(** The thread that changes the set. *)
Definition changing (o : op) : thread unit :=
  match o with
  | OpAdd ds s size => AddVersion_t ds s size
  | OpPromote n => Promote_t n
  | OpDemote n => Demote_t n
  | OpRevoke n => Revoke_t n
  end.

(** ** Calls without interruption *)

Lemma thread_rec2 {A} (P : thread A -> Prop) : (forall r, P (Finished r)) -> (forall f, (forall ks, P (snd (f ks))) -> P (Access f)) -> forall t, P t.
Proof. intros H1 H2. fix F 1. intros [r|f]; [apply H1|]. apply H2. intros ks. destruct (f ks) as [ks' t]. cbn [snd]. apply F. Qed.

Lemma dict_set_new {A B} (eqb : A -> A -> bool) (l : list (A * B)) a b : assoc eqb l a = None -> dict_set eqb l a b = l ++ [(a, b)].
Proof. induction l as [|[x y] l IH]; cbn [assoc dict_set app]; [reflexivity|]. destruct (eqb x a); [discriminate|]. intros H. rewrite (IH H). reflexivity. Qed.

Lemma alone_gen ks t size k ds : alone (gen_t t size ds k) ks =
  match gen_unique (ks_hkeys ks) t size ds with Ok (x, h) => alone (k x h) ks | Raise e => (ks, Raise e) end.
Proof.
  induction ds as [|d ds IH]; cbn [gen_t gen_unique alone]; [reflexivity|]. destruct (GenKey d t (Some size)) as [x|e]; cbn [bind alone]; [|reflexivity].
  destruct (key_hash_id x) as [h|e]; cbn [bind alone read]; [|reflexivity]. destruct (assoc str_eqb (ks_hkeys ks) h); [exact IH | reflexivity].
Qed.

Lemma alone_AddKey ks o n k h : alone (AddKey_t o n k h) ks =
  (let ks1 := set_keys ks (ks_vkeys ks ++ [(o, k)]) (dict_set str_eqb (ks_hkeys ks) h k) in
   match assoc Z.eqb (ks_mvers ks) n with Some _ => ks1 | None => set_mvers ks1 (ks_mvers ks ++ [(n, o)]) end, Ok tt).
Proof.
  cbn [AddKey_t write read alone set_keys ks_vkeys ks_hkeys ks_mvers]. destruct (assoc Z.eqb (ks_mvers ks) n) eqn:A; cbn [alone write]; [reflexivity|].
  cbn [ks_mvers]. rewrite (dict_set_new _ _ _ _ A). reflexivity.
Qed.

Lemma alone_drop {A} (k : thread A) ks : alone (demote_primary_t k) ks = alone k (match ks_primary ks with Some p => set_status ks p ACTIVE | None => ks end).
Proof. unfold demote_primary_t, read, write. cbn [alone]. destruct (ks_primary ks) as [p|] eqn:E; cbn [alone]; [|reflexivity]. rewrite E. reflexivity. Qed.

(** The model of threads and that of Keyczar.v agree on a call that is not interrupted. *)
Theorem C90_alone : forall ks, reached ks -> (forall o, alone (changing o) ks = step ks o) /\ (forall c, alone (calling c) ks = (ks, gives ks c)).
Proof.
  intros ks R. pose proof (reached_inv ks R) as I. split.
  - intros [ds s size|n|n|n]; cbn [changing step].
    + unfold AddVersion_t, read. cbn [alone]. rewrite AddVersion_eq. cbv zeta. set (sz := match size with Some z => z | None => _ end). destruct (negb _); cbn [alone]; [reflexivity|].
      set (o := length (ks_objs ks)). set (n := max_version ks + 1). set (ks1 := set_objs ks (ks_objs ks ++ [MkVersion n s false])).
      assert (G : alone (AddVersion_rest (ks_type ks) ds s sz o n) ks1 = alone (gen_t (ks_type ks) sz ds (AddKey_t o n)) (add_prepare ks s)).
      { unfold AddVersion_rest, add_prepare. fold n. fold ks1. fold o. destruct (status_eqb s PRIMARY); [|reflexivity]. rewrite alone_drop. unfold write. cbn [alone]. reflexivity. }
      rewrite G, alone_gen. destruct (prepare_same ks s I) as (E1 & E2 & E3 & E4 & E5 & E6 & E7 & E8 & E9). rewrite E3.
      destruct (gen_unique _ _ _ ds) as [[k h]|e]; [|reflexivity]. rewrite alone_AddKey. cbv zeta. f_equal. unfold AddKey. cbn [set_keys ks_objs ks_mvers]. fold o in E9. rewrite E9. cbn [v_num]. fold n. reflexivity.
    + unfold Promote_t, with_version, Promote, GetVersion, read. cbn [alone]. destruct (assoc Z.eqb (ks_mvers ks) n) as [o|]; cbn [alone]; [|reflexivity].
      unfold if_status, read. cbn [alone]. destruct (v_status (deref (ks_objs ks) o)) eqn:ES; cbn [status_eqb alone]; rewrite ?ES; cbn [status_eqb alone]; [reflexivity | | rewrite ES; reflexivity].
      unfold write at 1. cbn [alone]. rewrite alone_drop. unfold write. cbn [alone set_status set_objs ks_primary]. reflexivity.
    + unfold Demote_t, with_version, Demote, GetVersion, read. cbn [alone]. destruct (assoc Z.eqb (ks_mvers ks) n) as [o|]; cbn [alone]; [|reflexivity].
      unfold if_status, read. cbn [alone]. destruct (v_status (deref (ks_objs ks) o)) eqn:ES; cbn [status_eqb alone]; rewrite ?ES; cbn [status_eqb alone]; try reflexivity. rewrite ES. reflexivity.
    + unfold Revoke_t, with_version, Revoke, GetVersion, read. cbn [alone]. destruct (assoc Z.eqb (ks_mvers ks) n) as [o|] eqn:A; cbn [alone]; [|reflexivity].
      unfold if_status, read. cbn [alone]. destruct (v_status (deref (ks_objs ks) o)) eqn:ES; cbn [status_eqb alone]; try reflexivity. rewrite A. reflexivity.
  - assert (TM : forall A B (f : A -> B) t r, alone t ks = (ks, r) -> alone (tmap f t) ks = (ks, res_map f r)).
    { intros A B f t r H. assert (G : forall k1, alone (tmap f t) k1 = let (k2, r2) := alone t k1 in (k2, res_map f r2)).
      { clear. induction t as [r0|g IH] using thread_rec2; intros k1; cbn [tmap alone]; [reflexivity|]. specialize (IH k1). destruct (g k1) as [k2 t2]. apply IH. }
      rewrite G, H. reflexivity. }
    assert (WP : forall A (k : key -> thread A) r, (forall x, primary_key ks = Ok x -> alone (k x) ks = (ks, r x)) -> alone (with_primary k) ks = (ks, let* x := primary_key ks in r x)).
    { intros A k r H. unfold with_primary, read. cbn [alone]. unfold primary_key in *. destruct (GetKey_version ks (ks_primary ks)) as [x|e]; cbn [bind alone]; [apply H; reflexivity | reflexivity]. }
    assert (WH : forall A h (k : key -> thread A) r, (forall x, alone (k x) ks = (ks, r x)) -> alone (with_header h k) ks = (ks, let* x := ParseHeader ks h in r x)).
    { intros A h k r H. unfold with_header, ParseHeader. destruct (index h 0) as [c|e]; cbn [bind alone]; [|reflexivity]. destruct (negb _); cbn [bind alone]; [reflexivity|]. unfold read. cbn [alone].
      destruct (GetKey_hash ks _) as [x|e]; cbn [bind alone]; [apply H | reflexivity]. }
    assert (IS : forall e m n k, alone (InternalSign_t e m n k) ks = (ks, let* s := InternalSign e ks m n in k s)).
    { intros e m n k. unfold InternalSign_t, InternalSign. erewrite WP by (intros x _; reflexivity). f_equal. destruct (primary_key ks); cbn [bind]; [|reflexivity].
      destruct (PackByteArray n); cbn [bind]; reflexivity. }
    intros [e m d|c d|e m d|m s d|e m n d|s n d|e m d|m s d]; cbn [calling gives]; apply TM.
    + unfold Encrypt_t, Encrypt. apply WP. reflexivity.
    + unfold Decrypt_t, Decrypt. destruct (apply_codec d c); cbn [bind alone]; [|reflexivity]. destruct (_ <? _); [reflexivity|]. apply WH. reflexivity.
    + unfold Sign_t, Sign. apply WP. intros x _. destruct (key_header x); cbn [bind alone]; [apply IS | reflexivity].
    + unfold Verify_t, Verify, InternalVerify. destruct (apply_codec d s); cbn [bind alone]; [|reflexivity]. destruct (_ <? _); [reflexivity|]. apply WH. reflexivity.
    + unfold AttachedSign_t, AttachedSign. apply WP. intros x _. destruct (key_header x); cbn [bind alone]; [|reflexivity]. destruct (PackByteArray (Some m)); cbn [bind alone]; [apply IS | reflexivity].
    + unfold AttachedVerify_t, AttachedVerify, InternalVerify. destruct (apply_codec d s) as [x|]; cbn [bind alone]; [|reflexivity]. destruct (UnpackByteArray x HEADER_SIZE) as [[y z]|]; cbn [bind alone]; [|reflexivity].
      erewrite WH by reflexivity. f_equal. destruct (ParseHeader ks _); cbn [bind]; [|reflexivity]. destruct (PackByteArray n); cbn [bind]; reflexivity.
    + unfold UnversionedSign_t, UnversionedSign. apply WP. reflexivity.
    + unfold UnversionedVerify_t, UnversionedVerify. destruct (apply_codec d s) as [x|]; cbn [bind alone]; [|reflexivity]. unfold read. cbn [alone].
      assert (G : forall l, incl l (ks_vkeys ks) -> alone (verify_any_t (map fst l) m x) ks = (ks, verify_any l m x)).
      { induction l as [|[o k] l IH]; intros H; cbn [map fst verify_any_t verify_any alone read]; [reflexivity|].
        assert (A : assoc Nat.eqb (ks_vkeys ks) o = Some k) by (apply (assoc_NoDup Nat.eqb_eq); [apply (inv_vnodup ks I) | apply H; left; reflexivity]).
        unfold GetKey_version. rewrite A. cbn [bind]. destruct (key_Verify k m x) as [[|]|e]; cbn [bind alone]; try reflexivity. apply IH. intros p HP. apply H. right. exact HP. }
      apply G. apply incl_refl.
Qed.
Print Assumptions C90_alone.

(** ** Threads that use one set *)

Inductive read_only {A} : thread A -> Prop :=
| RoFinished r : read_only (Finished r)
| RoAccess f : (forall ks, fst (f ks) = ks) -> (forall ks, read_only (snd (f ks))) -> read_only (Access f).

Lemma ro_read {A B} (g : keyset -> B) (k : B -> thread A) : (forall b, read_only (k b)) -> read_only (read g k).
Proof. intros H. constructor; intros ks; cbn [fst snd]; [reflexivity | apply H]. Qed.

Lemma ro_tmap {A B} (f : A -> B) t : read_only t -> read_only (tmap f t).
Proof.
  induction 1 as [r|g H1 H2 IH]; cbn [tmap]; [constructor|]. constructor; intros ks; specialize (H1 ks); specialize (IH ks); destruct (g ks) as [ks' t']; cbn [fst snd] in *; assumption.
Qed.

Lemma ro_calling c : read_only (calling c).
Proof.
  assert (WP : forall A (k : key -> thread A), (forall x, read_only (k x)) -> read_only (with_primary k)).
  { intros A k H. apply ro_read. intros p. apply ro_read. intros [x|e]; [apply H | constructor]. }
  assert (WH : forall A h (k : key -> thread A), (forall x, read_only (k x)) -> read_only (with_header h k)).
  { intros A h k H. unfold with_header. destruct (let* _ := _ in _); [|constructor]. apply ro_read. intros [x|e]; [apply H | constructor]. }
  assert (IS : forall e m n k, read_only (InternalSign_t e m n k)) by (intros; apply WP; constructor).
  destruct c as [e m d|c d|e m d|m s d|e m n d|s n d|e m d|m s d]; cbn [calling]; apply ro_tmap.
  - apply WP. constructor.
  - unfold Decrypt_t. destruct (apply_codec d c); [|constructor]. destruct (_ <? _); [constructor|]. apply WH. constructor.
  - apply WP. intros x. destruct (key_header x); [apply IS | constructor].
  - unfold Verify_t. destruct (apply_codec d s); [|constructor]. destruct (_ <? _); [constructor|]. apply WH. constructor.
  - apply WP. intros x. destruct (let* _ := key_header x in _) as [[? ?]|]; [apply IS | constructor].
  - unfold AttachedVerify_t. destruct (let* _ := apply_codec d s in _) as [[[? ?] ?]|]; [|constructor]. apply WH. constructor.
  - apply WP. constructor.
  - unfold UnversionedVerify_t. destruct (apply_codec d s) as [x|]; [|constructor]. apply ro_read. intros l. induction l as [|o l IH]; cbn [verify_any_t]; [constructor|].
    apply ro_read. intros r. destruct (let* k := r in _) as [[|]|]; [constructor | exact IH | constructor].
Qed.

(** Any number of threads may use one set at the same time: at every moment the set is as it was, and
    every call that has ended gave what it gives alone; the others will give it. *)
Theorem C90_shared : forall ks cs ks' ts, reached ks -> turns (ks, map calling cs) (ks', ts) ->
  ks' = ks /\ Forall2 (fun c t => alone t ks = (ks, gives ks c) /\ (forall r, t = Finished r -> r = gives ks c)) cs ts.
Proof.
  intros ks cs ks' ts R H. destruct (C90_alone ks R) as [_ AL].
  assert (G : forall p q, turns p q -> forall l, fst p = ks -> snd p = l -> Forall read_only l -> Forall2 (fun c t => alone t ks = (ks, gives ks c)) cs l ->
    fst q = ks /\ Forall2 (fun c t => alone t ks = (ks, gives ks c)) cs (snd q)).
  { induction 1 as [p|p q r T H' IH]; intros l E1 E2 RO F; [subst; split; [reflexivity | exact F]|]. destruct T as [k1 k2 a f t b EF]. cbn [fst snd] in *. subst k1 l.
    apply Forall_app in RO as [RA RB]. inversion RB as [|? ? R1 R2]; subst. inversion R1 as [|? X1 X2]; subst. specialize (X1 ks). specialize (X2 ks). rewrite EF in X1, X2. cbn [fst snd] in X1, X2. subst k2.
    apply (IH _ eq_refl eq_refl).
    - apply Forall_app. split; [exact RA | constructor; assumption].
    - apply Forall2_app_inv_r in F as (c1 & c2 & F1 & F2 & ->). inversion F2 as [|c0 ? c2' ? A0 F3]; subst. apply Forall2_app; [exact F1|]. constructor; [|exact F3]. cbn [alone] in A0. rewrite EF in A0. exact A0. }
  destruct (G _ _ H (map calling cs) eq_refl eq_refl) as [E F].
  - apply Forall_forall. intros t HT. apply in_map_iff in HT as (c & <- & _). apply ro_calling.
  - clear -AL. induction cs as [|c cs IH]; cbn [map]; [constructor | constructor; [apply AL | exact IH]].
  - cbn [fst snd] in E, F. split; [exact E|]. clear -F. induction F as [|c t cs ts A F IH]; [constructor|]. constructor; [|exact IH]. split; [exact A|]. intros r ->. cbn [alone] in A. apply pair_inj in A as [_ A]. exact A.
Qed.
Print Assumptions C90_shared.
