(** * Props_Threads3: one thread that adds a version, and the races between threads that change the set (C90). *)
From Coq Require Import Strings.String.
From Coq Require Import List ZArith NArith Bool Lia ZifyBool ZifyNat ZifyN.
From Coq.Init Require Import Byte.
From Verif Require Import PyBase PyFacts Util UtilFacts Base64 Json JsonFacts KeyInfo KeyData SymKeys AsymKeys Keys Keyczar KeyRing KeyczarFacts Disk DiskFacts
  Props_Keyset Props_Sign Threads Props_Threads Props_Threads2.
Import ListNotations.
Local Open Scope Z_scope.
Ltac Zify.zify_post_hook ::= idtac.

(** ** One thread adds *)

(** What the calls that add no version leave alone; [n] is a number that none of them revokes. *)
Record quietly (n : Z) (k k' : keyset) : Prop := MkQuietly {
  q_type : ks_type k' = ks_type k; q_vk : ks_vkeys k' = ks_vkeys k; q_hk : ks_hkeys k' = ks_hkeys k;
  q_len : length (ks_objs k') = length (ks_objs k); q_num : forall o, v_num (deref (ks_objs k') o) = v_num (deref (ks_objs k) o);
  q_mv : assoc Z.eqb (ks_mvers k') n = assoc Z.eqb (ks_mvers k) n }.

Lemma quietly_refl n k : quietly n k k.
Proof. split; reflexivity. Qed.
Lemma quietly_trans n a b c : quietly n a b -> quietly n b c -> quietly n a c.
Proof. intros [A1 A2 A3 A4 A5 A6] [B1 B2 B3 B4 B5 B6]. split; congruence. Qed.
Lemma quietly_status n k q s : quietly n k (set_status k q s).
Proof. split; try reflexivity; cbn [set_status set_objs ks_objs]; [apply length_upd | intros o; apply deref_num]. Qed.
Lemma quietly_primary n k p : quietly n k (set_primary k p).
Proof. split; reflexivity. Qed.

Lemma quietly_max n k k' : quietly n k k' -> max_version k' = max_version k.
Proof. intros [A1 A2 A3 A4 A5 A6]. unfold max_version, ks_versions. rewrite A2. generalize 0. induction (map fst (ks_vkeys k)) as [|o l IH]; intros m; cbn [fold_left]; [reflexivity|]. rewrite A5. apply IH. Qed.

Inductive quiet {A} (n : Z) : thread A -> Prop :=
| QuietFinished r : quiet n (Finished r)
| QuietAccess f : (forall k, quietly n k (fst (f k))) -> (forall k, quiet n (snd (f k))) -> quiet n (Access f).

Lemma quiet_read {A B} n (g : keyset -> B) (k : B -> thread A) : (forall b, quiet n (k b)) -> quiet n (read g k).
Proof. intros H. constructor; intros ks; cbn [fst snd]; [apply quietly_refl | apply H]. Qed.
Lemma quiet_write {A} n g (k : thread A) : (forall ks, quietly n ks (g ks)) -> quiet n k -> quiet n (write g k).
Proof. intros H1 H2. constructor; intros ks; cbn [fst snd]; [apply H1 | exact H2]. Qed.
Lemma quiet_ro {A} n (t : thread A) : read_only t -> quiet n t.
Proof. induction 1 as [r|f H1 H2 IH]; constructor; intros k; [rewrite H1; apply quietly_refl | apply IH]. Qed.
Lemma quiet_tmap {A B} n (f : A -> B) t : quiet n t -> quiet n (tmap f t).
Proof. induction 1 as [r|g H1 H2 IH]; cbn [tmap]; constructor; intros k; specialize (H1 k); specialize (IH k); destruct (g k) as [k' t']; cbn [fst snd] in *; assumption. Qed.
Lemma quiet_demote {A} n (k : thread A) : quiet n k -> quiet n (demote_primary_t k).
Proof. intros H. apply quiet_read. intros [p|]; [|exact H]. apply quiet_read. intros [q|]; [|constructor]. apply quiet_write; [intros ks; apply quietly_status | exact H]. Qed.

Lemma quiet_running n j : (forall ds s size, j <> Change (OpAdd ds s size)) -> j <> Change (OpRevoke n) -> quiet n (running j).
Proof.
  intros N1 N2. destruct j as [[ds s size|m|m|m]|c]; cbn [running changing]; [destruct (N1 ds s size eq_refl)| | | |apply quiet_tmap, quiet_ro, ro_calling]; apply quiet_tmap; apply quiet_read; intros [o|]; try apply QuietFinished.
  - apply quiet_read. intros [|]; [constructor|]. apply quiet_read. intros [|].
    + apply quiet_write; [intros k; apply quietly_status|]. apply quiet_demote. apply quiet_write; [intros k; apply quietly_primary | constructor].
    + apply quiet_read. intros [|]; [|constructor]. apply quiet_write; [intros k; apply quietly_status | constructor].
  - apply quiet_read. intros [|].
    + apply quiet_write; [intros k; apply quietly_status|]. apply quiet_write; [intros k; apply quietly_primary | constructor].
    + apply quiet_read. intros [|]; [apply quiet_write; [intros k; apply quietly_status | constructor]|]. apply quiet_read. intros [|]; constructor.
  - apply quiet_read. intros [|]; [|constructor]. constructor; intros k; destruct (assoc Z.eqb (ks_mvers k) m) as [o'|]; cbn [fst snd]; try apply QuietFinished; try apply quietly_refl. split; try reflexivity.
    cbn [set_mvers ks_mvers]. rewrite (assoc_pop _ Z.eqb_eq). destruct (m =? n) eqn:E; [|reflexivity]. apply Z.eqb_eq in E. subst m. destruct (N2 eq_refl).
Qed.

(** The tracked thread: [x] is the state without the others' accesses. *)
Inductive stage {A} (n : Z) (P : keyset -> res A -> Prop) : keyset -> thread A -> Prop :=
| StageFinished x r : (forall k, quietly n x k -> P k r) -> stage n P x (Finished r)
| StageAccess x f : (forall k, quietly n x k -> exists x', quietly n x' (fst (f k)) /\ stage n P x' (snd (f k))) -> stage n P x (Access f).

Lemma stage_turns {A} n (P : keyset -> res A -> Prop) p q : turns p q -> forall a t b x, snd p = a ++ t :: b -> quietly n x (fst p) -> Forall (quiet n) a -> Forall (quiet n) b -> stage n P x t ->
  exists a' t' b' x', snd q = a' ++ t' :: b' /\ length a' = length a /\ quietly n x' (fst q) /\ stage n P x' t'.
Proof.
  induction 1 as [p|p q r T H IH]; intros a t b x EP HX QA QB HS; [exists a, t, b, x; repeat (split; [assumption || reflexivity|]); assumption|].
  destruct T as [k1 k2 a0 f t0 b0 EF]. cbn [fst snd] in *.
  assert (AT : forall (l1 l2 l3 l4 : list (thread A)) u v, l1 ++ u :: l2 = l3 ++ v :: l4 -> (l1 = l3 /\ u = v /\ l2 = l4) \/ (exists m, l3 = l1 ++ u :: m /\ l2 = m ++ v :: l4) \/ (exists m, l1 = l3 ++ v :: m /\ l4 = m ++ u :: l2)).
  { induction l1 as [|y l1 IHl]; intros l2 [|z l3] l4 u v E; cbn [app] in E; injection E as E1 E2; subst.
    - left. auto.
    - right. left. exists l3. split; reflexivity.
    - right. right. exists l1. split; reflexivity.
    - destruct (IHl _ _ _ _ _ E2) as [(-> & -> & ->)|[(m & -> & ->)|(m & -> & ->)]]; [left; auto | right; left; exists m; auto | right; right; exists m; auto]. }
  destruct (AT _ _ _ _ _ _ EP) as [(-> & <- & ->)|[(m & -> & ->)|(m & -> & ->)]].
  - inversion HS as [|? ? HF]; subst. destruct (HF k1 HX) as (x' & Q1 & S1). rewrite EF in Q1, S1. cbn [fst snd] in Q1, S1. apply (IH a t0 b x' eq_refl Q1 QA QB S1).
  - apply Forall_app in QA as [QA1 QA2]. inversion QA2 as [|? ? QF QA3]; subst. inversion QF as [|? X1 X2]; subst. specialize (X1 k1). specialize (X2 k1). rewrite EF in X1, X2. cbn [fst snd] in X1, X2.
    destruct (IH (a0 ++ t0 :: m) t b x) as (a' & t' & b' & x' & E1 & E2 & E3).
    + rewrite <- app_assoc. reflexivity.
    + apply (quietly_trans _ _ _ _ HX X1).
    + apply Forall_app. split; [exact QA1 | constructor; assumption].
    + exact QB.
    + exact HS.
    + exists a', t', b', x'. split; [exact E1|]. split; [rewrite E2, !app_length; reflexivity | exact E3].
  - apply Forall_app in QB as [QB1 QB2]. inversion QB2 as [|? ? QF QB3]; subst. inversion QF as [|? X1 X2]; subst. specialize (X1 k1). specialize (X2 k1). rewrite EF in X1, X2. cbn [fst snd] in X1, X2.
    apply (IH a t (m ++ t0 :: b0) x).
    + rewrite <- app_assoc. reflexivity.
    + apply (quietly_trans _ _ _ _ HX X1).
    + exact QA.
    + apply Forall_app. split; [exact QB1 | constructor; assumption].
    + exact HS.
Qed.

Lemma stage_tmap {A B} n (f : A -> B) (P : keyset -> res B -> Prop) x t : stage n (fun k r => P k (res_map f r)) x t -> stage n P x (tmap f t).
Proof.
  revert x. induction t as [r|g IH] using thread_rec2; intros x H; cbn [tmap]; inversion H as [? ? HF|? ? HF]; subst; constructor; [exact HF|].
  intros k HK. destruct (HF k HK) as (x' & Q & S). specialize (IH k). destruct (g k) as [k' t']. cbn [fst snd] in *. exists x'. split; [exact Q | apply IH, S].
Qed.

Section ADDER.
Context (ks : keyset) (ds : list draw) (s : status) (size : option Z) (R : reached ks).
Notation n := (max_version ks + 1).
Definition added (k : keyset) (r : res unit) : Prop :=
  r = Ok tt -> snd (step ks (OpAdd ds s size)) = Ok tt /\
    ks_vkeys k = ks_vkeys (fst (step ks (OpAdd ds s size))) /\ ks_hkeys k = ks_hkeys (fst (step ks (OpAdd ds s size))) /\ assoc Z.eqb (ks_mvers k) n = Some (length (ks_objs ks)).

Lemma stage_fail x e : stage n added x (Finished (Raise e)).
Proof. constructor. intros k _ H. discriminate. Qed.

Lemma stage_adder : stage n added ks (changing (OpAdd ds s size)).
Proof.
  pose proof (reached_inv ks R) as I. destruct (C90_alone ks R) as [AL _]. specialize (AL (OpAdd ds s size)). cbn [changing] in *. unfold added. rewrite <- AL. clear AL.
  assert (NN : assoc Z.eqb (ks_mvers ks) n = None).
  { destruct (assoc Z.eqb (ks_mvers ks) n) as [o|] eqn:E; [|reflexivity]. destruct (inv_mvers ks I n o (assoc_In Z.eqb_eq E)) as [HI EN]. pose proof (max_version_ge ks o HI). lia. }
  unfold AddVersion_t at 2. constructor. intros k0 Q0. exists ks. cbn [fst snd]. split; [exact Q0|]. rewrite (q_type _ _ _ Q0).
  unfold AddVersion_t, read at 1 2 3. cbn [alone]. set (sz := match size with Some z => z | None => _ end). clearbody sz. destruct (negb _); [constructor; intros k _ H; discriminate|].
  constructor. intros k1 Q1. cbn [fst snd alone]. rewrite (quietly_max _ _ _ Q1), (q_len _ _ _ Q1). set (o := length (ks_objs ks)). set (x1 := set_objs ks (ks_objs ks ++ [MkVersion n s false])).
  exists x1. split.
  { destruct Q1 as [A1 A2 A3 A4 A5 A6]. split; try assumption; cbn [set_objs x1 ks_objs]; [rewrite !app_length, A4; reflexivity|]. intros q. unfold deref in *. destruct (Nat.lt_ge_cases q (length (ks_objs ks))) as [L|L].
    - rewrite !app_nth1 by lia. apply A5.
    - rewrite !app_nth2 by lia. rewrite A4. reflexivity. }
  clear k0 Q0 k1 Q1.
  assert (G : forall x (T : keyset * res unit), quietly n x1 x -> T = alone (gen_t (ks_type ks) sz ds (AddKey_t o n)) x ->
    stage n (fun k r => r = Ok tt -> snd T = Ok tt /\ ks_vkeys k = ks_vkeys (fst T) /\ ks_hkeys k = ks_hkeys (fst T) /\ assoc Z.eqb (ks_mvers k) n = Some o) x1 (gen_t (ks_type ks) sz ds (AddKey_t o n))).
  { intros x T HX ->. rewrite alone_gen. rewrite (q_hk _ _ _ HX). change (ks_hkeys x1) with (ks_hkeys ks). induction ds as [|d l IH]; cbn [gen_t gen_unique]; [constructor; intros k _ H; discriminate|].
    destruct (GenKey d _ _) as [key|e]; cbn [bind]; [|constructor; intros k _ H; discriminate]. destruct (key_hash_id key) as [h|e]; cbn [bind]; [|constructor; intros k _ H; discriminate].
    constructor. intros k1 Q1. exists x1. cbn [fst snd]. split; [exact Q1|]. rewrite (q_hk _ _ _ Q1). change (ks_hkeys x1) with (ks_hkeys ks). destruct (assoc str_eqb (ks_hkeys ks) h) eqn:EH; [exact IH|]. clear IH k1 Q1.
    rewrite alone_AddKey. cbv zeta. cbn [fst snd]. rewrite (q_mv _ _ _ HX), (q_vk _ _ _ HX), (q_hk _ _ _ HX). change (ks_mvers x1) with (ks_mvers ks). change (ks_vkeys x1) with (ks_vkeys ks). change (ks_hkeys x1) with (ks_hkeys ks). rewrite NN.
    cbn [set_mvers set_keys ks_vkeys ks_hkeys].
    constructor. intros k1 Q1. cbn [fst snd]. set (x2 := set_keys x1 (ks_vkeys x1 ++ [(o, key)]) (ks_hkeys x1)). exists x2. split; [destruct Q1 as [A1 A2 A3 A4 A5 A6]; split; try assumption; cbn [set_keys x2 ks_vkeys]; rewrite A2; reflexivity|]. clear k1 Q1.
    constructor. intros k2 Q2. cbn [fst snd]. set (x3 := set_keys x2 (ks_vkeys x2) (dict_set str_eqb (ks_hkeys x2) h key)). exists x3. split; [destruct Q2 as [A1 A2 A3 A4 A5 A6]; split; try assumption; cbn [set_keys x3 ks_hkeys]; rewrite A3; reflexivity|]. clear k2 Q2.
    constructor. intros k3 Q3. cbn [fst snd]. exists x3. split; [exact Q3|]. rewrite (q_mv _ _ _ Q3). change (ks_mvers x3) with (ks_mvers ks). rewrite NN. clear k3 Q3.
    constructor. intros k4 Q4. cbn [fst snd]. exists (set_mvers x3 (dict_set Z.eqb (ks_mvers x3) n o)). split; [destruct Q4 as [A1 A2 A3 A4 A5 A6]; split; try assumption; cbn [set_mvers ks_mvers]; rewrite !(assoc_set _ Z.eqb_eq), Z.eqb_refl; reflexivity|].
    constructor. intros k5 [A1 A2 A3 A4 A5 A6] _. split; [reflexivity|]. rewrite A2, A3, A6. split; [reflexivity|]. split; [reflexivity|]. cbn [set_mvers ks_mvers]. rewrite (assoc_set _ Z.eqb_eq), Z.eqb_refl. reflexivity. }
  unfold AddVersion_rest. destruct (status_eqb s PRIMARY); [|apply (G x1); [apply quietly_refl | reflexivity]]. rewrite alone_drop. unfold write at 1 2 3. cbn [alone]. fold x1.
  set (x := set_primary _ (Some o)). set (T := alone _ x). assert (HX : quietly n x1 x) by (unfold x; eapply quietly_trans; [|apply quietly_primary]; destruct (ks_primary x1); [apply quietly_status | apply quietly_refl]).
  specialize (G x T HX eq_refl). assert (W : stage n (fun k r => r = Ok tt -> snd T = Ok tt /\ ks_vkeys k = ks_vkeys (fst T) /\ ks_hkeys k = ks_hkeys (fst T) /\ assoc Z.eqb (ks_mvers k) n = Some o) x1 (write (fun k => set_primary k (Some o)) (gen_t (ks_type ks) sz ds (AddKey_t o n)))).
  { constructor. intros k Q. exists x1. split; [eapply quietly_trans; [exact Q | apply quietly_primary] | exact G]. }
  constructor. intros k1 Q1. exists x1. cbn [fst snd]. split; [exact Q1|]. destruct (ks_primary k1); [|exact W].
  constructor. intros k2 Q2. exists x1. cbn [fst snd]. split; [exact Q2|]. destruct (ks_primary k2) as [q|]; [|constructor; intros k _ H; discriminate].
  constructor. intros k3 Q3. exists x1. cbn [fst snd]. split; [eapply quietly_trans; [exact Q3 | apply quietly_status] | exact W].
Qed.
End ADDER.

(** If one thread adds a version, while others promote, demote, revoke and use versions, then at every
    moment after it has returned the set holds the keys it holds after the call alone, and the new
    version, unless it has been revoked, is the one the call makes. *)
Theorem C90_one_adder : forall ks a b ds s size ks' ts, reached ks ->
  (forall j, In j (a ++ b) -> (forall ds s size, j <> Change (OpAdd ds s size)) /\ j <> Change (OpRevoke (max_version ks + 1))) ->
  turns (ks, map running (a ++ Change (OpAdd ds s size) :: b)) (ks', ts) -> nth_error ts (length a) = Some (Finished (Ok (inl tt))) ->
  exists ks1, step ks (OpAdd ds s size) = (ks1, Ok tt) /\
    (forall c d, Decrypt ks' c d = Decrypt ks1 c d) /\ (forall m s d, Verify ks' m s d = Verify ks1 m s d) /\
    (forall m n d, AttachedVerify ks' m n d = AttachedVerify ks1 m n d) /\ (forall m s d, UnversionedVerify ks' m s d = UnversionedVerify ks1 m s d) /\
    exists k s', ring_of ks1 (max_version ks + 1) = Some (s, k) /\ ring_of ks' (max_version ks + 1) = Some (s', k).
Proof.
  intros ks a b ds s size ks' ts R N T HT. pose proof (reached_inv ks R) as I. rewrite map_app in T. cbn [map] in T.
  assert (Q : forall l, incl l (a ++ b) -> Forall (quiet (max_version ks + 1)) (map running l)).
  { intros l HL. apply Forall_forall. intros t Ht. apply in_map_iff in Ht as (j & <- & Hj). destruct (N j (HL j Hj)). apply quiet_running; assumption. }
  destruct (stage_turns (max_version ks + 1) (fun k r => r = Ok (inl tt) -> added ks ds s size k (Ok tt)) _ _ T (map running a) (running (Change (OpAdd ds s size))) (map running b) ks eq_refl) as (a' & t' & b' & x' & E1 & E2 & E3 & E4).
  - apply quietly_refl.
  - apply Q. intros j Hj. apply in_or_app. left. exact Hj.
  - apply Q. intros j Hj. apply in_or_app. right. exact Hj.
  - cbn [running]. apply stage_tmap. pose proof (stage_adder ks ds s size R) as S. revert S. generalize (changing (OpAdd ds s size)). intros t S.
    assert (W : forall (P P' : keyset -> res unit -> Prop), (forall k r, P k r -> P' k r) -> forall x t, stage (max_version ks + 1) P x t -> stage (max_version ks + 1) P' x t).
    { intros P P' HP x t0. revert x. induction t0 as [r|g IH] using thread_rec2; intros x H; inversion H as [? ? HF|? ? HF]; subst; constructor; [intros k HK; apply HP, HF, HK|].
      intros k HK. destruct (HF k HK) as (y & Q1 & Q2). exists y. split; [exact Q1 | apply IH, Q2]. }
    revert S. apply W. intros k [[]|e] H; cbn [res_map]; [intros _; exact H | discriminate].
  - cbn [fst snd] in *. rewrite E1 in HT. rewrite map_length in E2. rewrite <- E2, nth_error_app2 in HT by lia. rewrite Nat.sub_diag in HT. apply Some_inj in HT. subst t'.
    inversion E4 as [? ? HF|]; subst. destruct (HF ks' E3 eq_refl eq_refl) as (F1 & F2 & F3 & F4). destruct (step ks (OpAdd ds s size)) as [ks1 r] eqn:ES. cbn [fst snd] in *. subst r. exists ks1. split; [reflexivity|].
    assert (PH : forall h, ParseHeader ks' h = ParseHeader ks1 h) by (intros h; unfold ParseHeader, GetKey_hash; rewrite F3; reflexivity).
    split; [intros c d; unfold Decrypt; destruct (apply_codec d c); cbn [bind]; [rewrite PH|]; reflexivity|].
    split; [intros m sg d; unfold Verify, InternalVerify; destruct (apply_codec d sg); cbn [bind]; [rewrite PH|]; reflexivity|].
    split; [intros m nn d; unfold AttachedVerify, InternalVerify; destruct (apply_codec d m); cbn [bind]; [|reflexivity]; destruct (UnpackByteArray _ HEADER_SIZE) as [[? ?]|]; cbn [bind]; [rewrite PH|]; reflexivity|].
    split; [intros m sg d; unfold UnversionedVerify; destruct (apply_codec d sg); cbn [bind]; [rewrite F2|]; reflexivity|].
    cbn [step] in ES. rewrite AddVersion_eq in ES. cbv zeta in ES. destruct (negb _); [discriminate|]. destruct (gen_unique _ _ _ _) as [[k h]|e] eqn:EG; [|discriminate]. apply pair_inj in ES as [ES _].
    rewrite (AddKey_eq ks s k h I) in ES. subst ks1. destruct (prepare_same ks s I) as (_ & _ & _ & _ & _ & _ & _ & _ & P9).
    assert (NN : assoc Z.eqb (ks_mvers ks) (max_version ks + 1) = None).
    { destruct (assoc Z.eqb (ks_mvers ks) (max_version ks + 1)) as [o|] eqn:E; [|reflexivity]. destruct (inv_mvers ks I _ o (assoc_In Z.eqb_eq E)) as [HI EN]. pose proof (max_version_ge ks o HI). lia. }
    assert (VV : assoc Nat.eqb (ks_vkeys ks) (length (ks_objs ks)) = None).
    { destruct (assoc Nat.eqb (ks_vkeys ks) (length (ks_objs ks))) as [y|] eqn:E; [|reflexivity]. apply (assoc_In Nat.eqb_eq) in E. apply (in_map fst) in E. pose proof (inv_range ks I _ E) as L. cbn [fst] in L. lia. }
    exists k, (v_status (deref (ks_objs ks') (length (ks_objs ks)))). unfold ring_of. rewrite F4, F2. cbn [ks_mvers ks_vkeys ks_objs]. rewrite !assoc_app, NN, VV. cbn [assoc]. rewrite Z.eqb_refl, Nat.eqb_refl, assoc_app, VV. cbn [assoc]. rewrite Nat.eqb_refl, P9.
    split; reflexivity.
Qed.
Print Assumptions C90_one_adder.
