(** * Props_Order: no answer depends on the order in which dictionaries list their entries (C89). *)
From Coq Require Import Strings.String.
From Coq Require Import List ZArith NArith Bool Lia ZifyBool ZifyNat ZifyN Permutation.
From Coq.Init Require Import Byte.
From Verif Require Import PyBase PyFacts Util UtilFacts Base64 Json JsonFacts KeyInfo KeyData SymKeys AsymKeys Keys Keyczar KeyczarFacts Disk DiskFacts Props_Keyset Props_Sign Der Order.
Import ListNotations.
Local Open Scope Z_scope.
Ltac Zify.zify_post_hook ::= idtac.

(** ** Specification *)

(** A history of calls on a set; before each call, and at the end, the dictionaries may list their
    entries in another order.  [rs] is how the calls ended. *)
Inductive runs : keyset -> list op -> keyset -> list (res unit) -> Prop :=
| RunsEnd ks ks' : reordered ks ks' -> runs ks [] ks' []
| RunsCall ks ks1 ks2 o r ops ks' rs : reordered ks ks1 -> step ks1 o = (ks2, r) -> runs ks2 ops ks' rs -> runs ks (o :: ops) ks' (r :: rs).

(** How the calls end if the dictionaries keep insertion order. *)
Fixpoint results (ks : keyset) (ops : list op) : list (res unit) :=
  match ops with [] => [] | o :: ops' => snd (step ks o) :: results (fst (step ks o)) ops' end.

(** The same set for its user: the same attributes and versions, the same keys, and the same answer to
    every call. *)
Definition same_set (ks ks' : keyset) : Prop :=
  (ks_name ks' = ks_name ks /\ ks_purpose ks' = ks_purpose ks /\ ks_type ks' = ks_type ks /\ ks_encrypted ks' = ks_encrypted ks) /\
  (forall n, assoc Z.eqb (m_versions (ks_meta ks')) n = assoc Z.eqb (m_versions (ks_meta ks)) n) /\
  (forall n, ring_of ks' n = ring_of ks n) /\
  (forall c d, Decrypt ks' c d = Decrypt ks c d) /\
  (forall m s d, Verify ks' m s d = Verify ks m s d) /\
  (forall m n d, AttachedVerify ks' m n d = AttachedVerify ks m n d) /\
  (forall e m d, Encrypt e ks' m d = Encrypt e ks m d) /\
  (forall e m d, Sign e ks' m d = Sign e ks m d) /\
  (forall e m n d, AttachedSign e ks' m n d = AttachedSign e ks m n d) /\
  (forall e m d, UnversionedSign e ks' m d = UnversionedSign e ks m d) /\
  (forall m s d, UnversionedVerify ks' m s d = UnversionedVerify ks m s d).

(** ** Dictionaries *)

Section Dict.
  Context {A B : Type} (eqb : A -> A -> bool) (eqb_eq : forall x y, eqb x y = true <-> x = y).

  Lemma assoc_perm (l l' : list (A * B)) a : NoDup (map fst l) -> Permutation l l' -> assoc eqb l' a = assoc eqb l a.
  Proof.
    intros ND P. assert (ND' : NoDup (map fst l')) by (apply (Permutation_NoDup (Permutation_map fst P) ND)).
    destruct (assoc eqb l a) as [b|] eqn:E.
    - apply (assoc_NoDup eqb_eq); [exact ND'|]. apply (Permutation_in _ P), (assoc_In eqb_eq). exact E.
    - apply (assoc_None eqb_eq). apply (assoc_None eqb_eq) in E. intros C. apply E. apply (Permutation_in _ (Permutation_sym (Permutation_map fst P)) C).
  Qed.

  Lemma NoDup_dict_set (l : list (A * B)) a b : NoDup (map fst l) -> NoDup (map fst (dict_set eqb l a b)).
  Proof.
    assert (K : forall l x, In x (map fst (dict_set eqb l a b)) -> x = a \/ In x (map fst l)).
    { induction l0 as [|[c d] l0 IH]; intros x H; cbn [dict_set map fst In] in H |- *; [destruct H as [H|[]]; auto|].
      destruct (eqb c a) eqn:E; cbn [map fst In] in H; [destruct H; auto|]. destruct H as [H|H]; [auto|]. destruct (IH x H); auto. }
    induction l as [|[c d] l IH]; intros H; cbn [dict_set map fst]; [constructor; [auto | constructor]|]. cbn [map fst] in H. inversion H as [|? ? N1 N2]; subst.
    destruct (eqb c a) eqn:E; cbn [map fst]; constructor; auto. intros C. apply K in C as [->|C]; [|exact (N1 C)]. assert (eqb a a = true) by (apply eqb_eq; reflexivity). congruence.
  Qed.
End Dict.

Lemma fold_num_perm (l l' : list Z) : Permutation l l' -> forall m, fold_left (fun m x => if m <? x then x else m) l' m = fold_left (fun m x => if m <? x then x else m) l m.
Proof.
  induction 1 as [|x l l' P IH|x y l|l l1 l2 P1 IH1 P2 IH2]; intros m; cbn [fold_left]; [reflexivity | apply IH | | rewrite IH2; apply IH1].
  f_equal. destruct (m <? x) eqn:E1, (m <? y) eqn:E2; repeat match goal with |- context[if ?a <? ?b then _ else _] => destruct (Z.ltb_spec a b) end; lia.
Qed.

Lemma max_version_nums ks : max_version ks = fold_left (fun m x => if m <? x then x else m) (map (fun o => v_num (deref (ks_objs ks) o)) (ks_versions ks)) 0.
Proof. unfold max_version. generalize 0 as m. induction (ks_versions ks) as [|o l IH]; intros m; cbn [fold_left map]; [reflexivity | apply IH]. Qed.

(** ** Sets that are the same up to the order *)

(** Dictionaries without repeated keys, and version objects that exist. *)
Record wfd (ks : keyset) : Prop := MkWfd {
  w_mv : NoDup (map fst (ks_mvers ks)); w_vk : NoDup (map fst (ks_vkeys ks)); w_hk : NoDup (map fst (ks_hkeys ks));
  w_vr : forall o, In o (ks_versions ks) -> (o < length (ks_objs ks))%nat;
  w_mr : forall n o, In (n, o) (ks_mvers ks) -> (o < length (ks_objs ks))%nat;
  w_pr : forall o, ks_primary ks = Some o -> (o < length (ks_objs ks))%nat }.

(** The objects of [ks'] are those of [ks] under other positions, and the dictionaries agree. *)
Record eqv (r : nat -> nat) (ks ks' : keyset) : Prop := MkEqv {
  e_fields : ks_name ks' = ks_name ks /\ ks_purpose ks' = ks_purpose ks /\ ks_type ks' = ks_type ks /\ ks_encrypted ks' = ks_encrypted ks;
  e_inj : forall a b, r a = r b -> a = b;
  e_id : forall o, (length (ks_objs ks) <= o)%nat -> r o = o;
  e_len : length (ks_objs ks') = length (ks_objs ks);
  e_objs : forall o, (o < length (ks_objs ks))%nat -> deref (ks_objs ks') (r o) = deref (ks_objs ks) o;
  e_mv : forall n, assoc Z.eqb (ks_mvers ks') n = option_map r (assoc Z.eqb (ks_mvers ks) n);
  e_vk : Permutation (map (fun p => (r (fst p), snd p)) (ks_vkeys ks)) (ks_vkeys ks');
  e_hk : forall h, assoc str_eqb (ks_hkeys ks') h = assoc str_eqb (ks_hkeys ks) h;
  e_pr : ks_primary ks' = option_map r (ks_primary ks) }.

Lemma eqv_lt r ks ks' o : eqv r ks ks' -> (o < length (ks_objs ks))%nat -> (r o < length (ks_objs ks'))%nat.
Proof.
  intros E H. rewrite (e_len r ks ks' E). destruct (Nat.lt_ge_cases (r o) (length (ks_objs ks))) as [L|L]; [exact L|].
  pose proof (e_id r ks ks' E (r o) L) as X. apply (e_inj r ks ks' E) in X. lia.
Qed.

Lemma eqv_key r ks ks' o : eqv r ks ks' -> wfd ks -> wfd ks' -> assoc Nat.eqb (ks_vkeys ks') (r o) = assoc Nat.eqb (ks_vkeys ks) o.
Proof.
  intros E W W'. destruct (assoc Nat.eqb (ks_vkeys ks) o) as [k|] eqn:A.
  - apply (assoc_NoDup Nat.eqb_eq); [apply W'|]. apply (Permutation_in _ (e_vk r ks ks' E)). apply (assoc_In Nat.eqb_eq) in A. apply (in_map (fun p => (r (fst p), snd p)) _ _ A).
  - destruct (assoc Nat.eqb (ks_vkeys ks') (r o)) as [k|] eqn:B; [|reflexivity]. exfalso. apply (assoc_In Nat.eqb_eq) in B.
    apply (Permutation_in _ (Permutation_sym (e_vk r ks ks' E))) in B. apply in_map_iff in B as ([o' k'] & X & HI). cbn [fst snd] in X. apply pair_inj in X as [X ->].
    apply (e_inj r ks ks' E) in X as ->. rewrite (assoc_NoDup Nat.eqb_eq (w_vk ks W) HI) in A. discriminate.
Qed.

Lemma eqv_max r ks ks' : eqv r ks ks' -> wfd ks -> max_version ks' = max_version ks.
Proof.
  intros E W. rewrite !max_version_nums. apply fold_num_perm. unfold ks_versions.
  assert (X : map (fun o => v_num (deref (ks_objs ks) o)) (map fst (ks_vkeys ks)) = map (fun o => v_num (deref (ks_objs ks') o)) (map fst (map (fun p => (r (fst p), snd p)) (ks_vkeys ks)))).
  { rewrite !map_map. apply map_ext_in. intros [o k] HI. cbn [fst]. rewrite (e_objs r ks ks' E); [reflexivity|]. apply (w_vr ks W). unfold ks_versions. apply (in_map fst) in HI. exact HI. }
  rewrite X. apply Permutation_map, Permutation_map. exact (e_vk r ks ks' E).
Qed.

Lemma eqv_reordered r ks ks1 ks2 : eqv r ks ks1 -> wfd ks1 -> reordered ks1 ks2 -> eqv r ks ks2 /\ wfd ks2.
Proof.
  intros E W (mv & vk & hk & P1 & P2 & P3 & ->). destruct E, W. split; constructor; cbn [set_keys set_mvers ks_name ks_purpose ks_type ks_encrypted ks_objs ks_mvers ks_vkeys ks_hkeys ks_primary]; auto.
  - intros n. rewrite <- e_mv0. apply (assoc_perm Z.eqb Z.eqb_eq _ _ n w_mv0 (Permutation_sym P1)).
  - apply (Permutation_trans e_vk0 (Permutation_sym P2)).
  - intros h. rewrite <- e_hk0. apply (assoc_perm str_eqb str_eqb_eq _ _ h w_hk0 (Permutation_sym P3)).
  - apply (Permutation_NoDup (Permutation_map fst (Permutation_sym P1)) w_mv0).
  - apply (Permutation_NoDup (Permutation_map fst (Permutation_sym P2)) w_vk0).
  - apply (Permutation_NoDup (Permutation_map fst (Permutation_sym P3)) w_hk0).
  - intros o H. apply w_vr0. unfold ks_versions in *. cbn [ks_vkeys] in H. apply (Permutation_in _ (Permutation_map fst P2) H).
  - intros n o H. apply (w_mr0 n o). apply (Permutation_in _ P1 H).
Qed.

(** *** The steps of the operations *)

Lemma eqv_grow r ks ks' v : eqv r ks ks' -> eqv r (set_objs ks (ks_objs ks ++ [v])) (set_objs ks' (ks_objs ks' ++ [v])).
Proof.
  intros E. pose proof (fun o => eqv_lt r ks ks' o E) as LT. destruct E. constructor; cbn [set_objs ks_name ks_purpose ks_type ks_encrypted ks_objs ks_mvers ks_vkeys ks_hkeys ks_primary]; auto.
  - intros o H. rewrite app_length in H. cbn [length] in H. apply e_id0. lia.
  - rewrite !app_length, e_len0. reflexivity.
  - intros o H. rewrite app_length in H. cbn [length] in H. destruct (Nat.eq_dec o (length (ks_objs ks))) as [->|N].
    + rewrite e_id0 by lia. rewrite deref_app_new. rewrite <- e_len0 at 1. apply deref_app_new.
    + rewrite !deref_app_l by (try apply LT; lia). apply e_objs0. lia.
Qed.

Lemma eqv_status r ks ks' o s : eqv r ks ks' -> (o < length (ks_objs ks))%nat -> eqv r (set_status ks o s) (set_status ks' (r o) s).
Proof.
  intros E HO. pose proof (eqv_lt r ks ks' o E HO) as LT. destruct E. constructor; unfold set_status; cbn [set_objs ks_name ks_purpose ks_type ks_encrypted ks_objs ks_mvers ks_vkeys ks_hkeys ks_primary]; auto.
  - intros x H. rewrite length_upd in H. apply e_id0. exact H.
  - rewrite !length_upd. exact e_len0.
  - intros x H. rewrite length_upd in H. destruct (Nat.eq_dec o x) as [<-|N].
    + rewrite !deref_upd_eq by assumption. rewrite e_objs0 by exact HO. reflexivity.
    + rewrite !deref_upd_neq; [apply e_objs0; exact H | exact N | intros C; apply N, e_inj0; exact C].
Qed.

Lemma eqv_primary r ks ks' p : eqv r ks ks' -> eqv r (set_primary ks p) (set_primary ks' (option_map r p)).
Proof. intros []. constructor; cbn [set_primary ks_name ks_purpose ks_type ks_encrypted ks_objs ks_mvers ks_vkeys ks_hkeys ks_primary]; auto. Qed.

Lemma eqv_mvers r ks ks' m m' : eqv r ks ks' -> (forall n, assoc Z.eqb m' n = option_map r (assoc Z.eqb m n)) -> eqv r (set_mvers ks m) (set_mvers ks' m').
Proof. intros [] H. constructor; cbn [set_mvers ks_name ks_purpose ks_type ks_encrypted ks_objs ks_mvers ks_vkeys ks_hkeys ks_primary]; auto. Qed.

Lemma eqv_keys r ks ks' o k h : eqv r ks ks' ->
  eqv r (set_keys ks (ks_vkeys ks ++ [(o, k)]) (dict_set str_eqb (ks_hkeys ks) h k)) (set_keys ks' (ks_vkeys ks' ++ [(r o, k)]) (dict_set str_eqb (ks_hkeys ks') h k)).
Proof.
  intros []. constructor; cbn [set_keys ks_name ks_purpose ks_type ks_encrypted ks_objs ks_mvers ks_vkeys ks_hkeys ks_primary]; auto.
  - rewrite map_app. apply Permutation_app; [exact e_vk0 | reflexivity].
  - intros x. rewrite !(assoc_set _ str_eqb_eq), e_hk0. reflexivity.
Qed.

Lemma eqv_AddKey r ks ks' o k h : eqv r ks ks' -> (o < length (ks_objs ks))%nat -> eqv r (AddKey ks o k h) (AddKey ks' (r o) k h).
Proof.
  intros E HO. unfold AddKey. pose proof (eqv_keys r ks ks' o k h E) as K. cbn [set_keys ks_objs ks_mvers]. rewrite (e_objs r ks ks' E o HO), (e_mv r ks ks' E).
  destruct (assoc Z.eqb (ks_mvers ks) (v_num (deref (ks_objs ks) o))); cbn [option_map]; [exact K|].
  apply (eqv_mvers r _ _ _ _ K). intros n. rewrite !assoc_app, (e_mv r ks ks' E). destruct (assoc Z.eqb (ks_mvers ks) n); [reflexivity|]. cbn [option_map assoc]. destruct (_ =? _); reflexivity.
Qed.

Lemma eqv_step r ks ks' o : eqv r ks ks' -> wfd ks -> wfd ks' -> eqv r (fst (step ks o)) (fst (step ks' o)) /\ snd (step ks' o) = snd (step ks o).
Proof.
  intros E W W'. destruct (e_fields r ks ks' E) as (_ & _ & ET & _). destruct o as [ds s size|n|n|n]; cbn [step].
  - unfold AddVersion. rewrite ET. destruct (negb _); cbn [fst snd]; [split; [exact E | reflexivity]|].
    assert (G : forall t z, gen_unique (ks_hkeys ks') t z ds = gen_unique (ks_hkeys ks) t z ds).
    { intros t z. induction ds as [|d ds IH]; cbn [gen_unique]; [reflexivity|]. destruct (GenKey d t (Some z)) as [k|e]; cbn [bind]; [|reflexivity].
      destruct (key_hash_id k) as [h|e]; cbn [bind]; [|reflexivity]. rewrite (e_hk r ks ks' E). destruct (assoc str_eqb (ks_hkeys ks) h); [exact IH | reflexivity]. }
    rewrite G, (eqv_max r ks ks' E W), (e_len r ks ks' E).
    set (v := MkVersion (max_version ks + 1) s false). set (o := length (ks_objs ks)).
    set (a := if status_eqb s PRIMARY then _ else set_objs ks _). set (a' := if status_eqb s PRIMARY then _ else set_objs ks' _).
    assert (RO : r o = o) by (apply (e_id r ks ks' E); unfold o; lia).
    assert (EA : eqv r a a' /\ (o < length (ks_objs a))%nat).
    { pose proof (eqv_grow r ks ks' v E) as EG. assert (LO : (o < length (ks_objs ks ++ [v]))%nat) by (rewrite app_length; cbn [length]; unfold o; lia).
      unfold a, a'. destruct (status_eqb s PRIMARY); [|split; [exact EG | exact LO]]. rewrite (e_pr r ks ks' E). destruct (ks_primary ks) as [p|] eqn:EP; cbn [option_map].
      - pose proof (w_pr ks W p EP) as HP. split.
        + rewrite <- RO at 2. apply (eqv_primary r _ _ (Some o)). apply eqv_status; [exact EG|]. cbn [set_objs ks_objs]. rewrite app_length. lia.
        + cbn [set_primary set_status set_objs ks_objs]. rewrite length_upd. exact LO.
      - split; [rewrite <- RO at 2; apply (eqv_primary r _ _ (Some o)); exact EG | exact LO]. }
    destruct (gen_unique _ _ _ _) as [[k h]|e]; cbn [fst snd]; (split; [|reflexivity]); [|apply EA]. rewrite <- RO at 2. apply eqv_AddKey; apply EA.
  - unfold Promote, GetVersion. rewrite (e_mv r ks ks' E). destruct (assoc Z.eqb (ks_mvers ks) n) as [o|] eqn:A; cbn [option_map]; [|split; [exact E | reflexivity]].
    assert (HO : (o < length (ks_objs ks))%nat) by (apply (w_mr ks W n o), (assoc_In Z.eqb_eq); exact A). rewrite (e_objs r ks ks' E o HO).
    destruct (v_status (deref (ks_objs ks) o)); cbn [fst snd]; (split; [|reflexivity]); [exact E | | apply eqv_status; assumption].
    rewrite (e_pr r ks ks' E). pose proof (eqv_status r ks ks' o PRIMARY E HO) as E1. apply (eqv_primary r _ _ (Some o)). destruct (ks_primary ks) as [p|] eqn:EP; cbn [option_map]; [|exact E1].
    apply eqv_status; [exact E1|]. cbn [set_status set_objs ks_objs]. rewrite length_upd. apply (w_pr ks W p EP).
  - unfold Demote, GetVersion. rewrite (e_mv r ks ks' E). destruct (assoc Z.eqb (ks_mvers ks) n) as [o|] eqn:A; cbn [option_map]; [|split; [exact E | reflexivity]].
    assert (HO : (o < length (ks_objs ks))%nat) by (apply (w_mr ks W n o), (assoc_In Z.eqb_eq); exact A). rewrite (e_objs r ks ks' E o HO).
    destruct (v_status (deref (ks_objs ks) o)); cbn [fst snd]; (split; [|reflexivity]); [apply (eqv_primary r _ _ None); apply eqv_status; assumption | apply eqv_status; assumption | exact E].
  - unfold Revoke, GetVersion. rewrite (e_mv r ks ks' E). destruct (assoc Z.eqb (ks_mvers ks) n) as [o|] eqn:A; cbn [option_map]; [|split; [exact E | reflexivity]].
    assert (HO : (o < length (ks_objs ks))%nat) by (apply (w_mr ks W n o), (assoc_In Z.eqb_eq); exact A). rewrite (e_objs r ks ks' E o HO).
    destruct (v_status (deref (ks_objs ks) o)); cbn [fst snd]; (split; [|reflexivity]); [exact E | exact E |].
    apply eqv_mvers; [exact E|]. intros x. rewrite !(assoc_pop _ Z.eqb_eq), (e_mv r ks ks' E). destruct (n =? x); reflexivity.
Qed.

Lemma wfd_status ks o s : wfd ks -> wfd (set_status ks o s).
Proof. intros []. constructor; cbn [set_status set_objs ks_mvers ks_vkeys ks_hkeys ks_objs ks_primary]; rewrite ?length_upd; auto. Qed.

Lemma wfd_primary ks p : wfd ks -> (forall o, p = Some o -> (o < length (ks_objs ks))%nat) -> wfd (set_primary ks p).
Proof. intros [] H. constructor; cbn [set_primary ks_mvers ks_vkeys ks_hkeys ks_objs ks_primary]; auto. Qed.

Lemma wfd_grow ks v : wfd ks -> wfd (set_objs ks (ks_objs ks ++ [v])).
Proof.
  intros []. constructor; cbn [set_objs ks_mvers ks_vkeys ks_hkeys ks_objs ks_primary]; rewrite ?app_length; auto; cbn [length].
  - intros o H. specialize (w_vr0 o H). lia.
  - intros n o H. specialize (w_mr0 n o H). lia.
  - intros o H. specialize (w_pr0 o H). lia.
Qed.

Lemma wfd_AddKey ks o k h : wfd ks -> (o < length (ks_objs ks))%nat -> ~ In o (ks_versions ks) -> wfd (AddKey ks o k h).
Proof.
  intros [] HO HN. assert (W : wfd (set_keys ks (ks_vkeys ks ++ [(o, k)]) (dict_set str_eqb (ks_hkeys ks) h k))).
  { constructor; cbn [set_keys ks_mvers ks_vkeys ks_hkeys ks_objs ks_primary]; auto.
    - rewrite map_app. apply NoDup_snoc; assumption.
    - apply (NoDup_dict_set str_eqb str_eqb_eq). assumption.
    - intros x H. unfold ks_versions in H. cbn [ks_vkeys set_keys] in H. rewrite map_app in H. apply in_app_or in H as [H|[H|[]]]; [apply w_vr0; exact H | cbn in H; subst; exact HO]. }
  unfold AddKey. cbn [set_keys ks_objs ks_mvers] in *. destruct (assoc Z.eqb (ks_mvers ks) _) as [x|] eqn:A; [exact W|]. destruct W.
  constructor; cbn [set_mvers ks_mvers ks_vkeys ks_hkeys ks_objs ks_primary] in *; auto.
  - rewrite map_app. apply NoDup_snoc; [assumption|]. apply (assoc_None Z.eqb_eq). exact A.
  - intros n x H. apply in_app_or in H as [H|[H|[]]]; [apply (w_mr0 n x H)|]. apply pair_inj in H as [_ <-]. exact HO.
Qed.

Lemma wfd_step ks o : wfd ks -> wfd (fst (step ks o)).
Proof.
  intros W. destruct o as [ds s size|n|n|n]; cbn [step].
  - unfold AddVersion. destruct (negb _); [exact W|]. set (v := MkVersion _ s false). set (o := length (ks_objs ks)).
    set (a := if status_eqb s PRIMARY then _ else _).
    assert (WA : wfd a /\ (o < length (ks_objs a))%nat /\ ks_versions a = ks_versions ks).
    { pose proof (wfd_grow ks v W) as WG. assert (LO : (o < length (ks_objs ks ++ [v]))%nat) by (rewrite app_length; cbn [length]; unfold o; lia).
      unfold a. destruct (status_eqb s PRIMARY); [|split; [exact WG|]; split; [exact LO | reflexivity]]. destruct (ks_primary ks) as [p|].
      - split; [apply wfd_primary; [apply wfd_status; exact WG|] | split; [|reflexivity]]; cbn [set_primary set_status set_objs ks_objs]; rewrite length_upd; [intros x H; apply Some_inj in H as <-|]; exact LO.
      - split; [apply wfd_primary; [exact WG|]; intros x H; apply Some_inj in H as <- | split; [|reflexivity]]; exact LO. }
    destruct WA as (WA & LA & VA). destruct (gen_unique _ _ _ _) as [[k h]|e]; cbn [fst]; [|exact WA]. apply wfd_AddKey; [exact WA | exact LA|].
    rewrite VA. intros C. apply (w_vr ks W) in C. unfold o in C. lia.
  - unfold Promote, GetVersion. destruct (assoc Z.eqb (ks_mvers ks) n) as [o|] eqn:A; [|exact W].
    assert (HO : (o < length (ks_objs ks))%nat) by (apply (w_mr ks W n o), (assoc_In Z.eqb_eq); exact A).
    destruct (v_status _); cbn [fst]; [exact W | | apply wfd_status; exact W]. apply wfd_primary.
    + destruct (ks_primary ks); repeat apply wfd_status; exact W.
    + intros x H. apply Some_inj in H as <-. destruct (ks_primary ks); cbn [set_status set_objs ks_objs]; rewrite !length_upd; exact HO.
  - unfold Demote, GetVersion. destruct (assoc Z.eqb (ks_mvers ks) n) as [o|] eqn:A; [|exact W].
    destruct (v_status _); cbn [fst]; [apply wfd_primary; [apply wfd_status; exact W | discriminate] | apply wfd_status; exact W | exact W].
  - unfold Revoke, GetVersion. destruct (assoc Z.eqb (ks_mvers ks) n) as [o|] eqn:A; [|exact W].
    destruct (v_status _); cbn [fst]; [exact W | exact W |]. destruct W. constructor; cbn [set_mvers ks_mvers ks_vkeys ks_hkeys ks_objs ks_primary]; auto.
    + apply NoDup_dict_pop. assumption.
    + intros x y H. apply (w_mr0 x y). unfold dict_pop in H. apply filter_In in H as [H _]. exact H.
Qed.

Lemma eqv_runs r ks1 ops ks2 rs : runs ks1 ops ks2 rs -> forall ks, eqv r ks ks1 -> wfd ks -> wfd ks1 ->
  rs = results ks ops /\ eqv r (run ks ops) ks2 /\ wfd (run ks ops) /\ wfd ks2.
Proof.
  induction 1 as [a b R | a a1 a2 o q ops b rs R S H IH]; intros ks E W W1.
  - destruct (eqv_reordered r ks a b E W1 R) as [E2 W2]. split; [reflexivity|]. split; [exact E2|]. split; assumption.
  - destruct (eqv_reordered r ks a a1 E W1 R) as [E2 W2]. destruct (eqv_step r ks a1 o E2 W W2) as [E3 EQ]. rewrite S in E3, EQ. cbn [fst snd] in E3, EQ.
    pose proof (wfd_step a1 o W2) as W3. rewrite S in W3. cbn [fst] in W3.
    destruct (IH (fst (step ks o)) E3 (wfd_step ks o W) W3) as (-> & X). cbn [results run fold_left]. rewrite EQ. split; [reflexivity | exact X].
Qed.

(** *** What the set answers *)

(** The keys of a set all answer a signature, or all raise the same. *)
Fixpoint any_of (l : list (res bool)) : res bool :=
  match l with [] => Ok false | Ok b :: l' => if b then Ok true else any_of l' | Raise e :: _ => Raise e end.

Lemma verify_any_keys l m x : verify_any l m x = any_of (map (fun k => key_Verify k m x) (map snd l)).
Proof. induction l as [|[o k] l IH]; cbn [verify_any map snd any_of]; [reflexivity|]. destruct (key_Verify k m x) as [[|]|e]; cbn [bind]; [reflexivity | exact IH | reflexivity]. Qed.

Lemma any_true l : Forall (fun y => exists b, y = Ok b) l -> any_of l = Ok (existsb (fun y => match y with Ok true => true | _ => false end) l).
Proof. induction 1 as [|y l [b ->] F IH]; cbn [any_of existsb]; [reflexivity|]. destruct b; [reflexivity | exact IH]. Qed.

Lemma verify_uniform ks m x : inv ks -> Forall (fun y => exists b, y = Ok b) (map (fun k => key_Verify k m x) (map snd (ks_vkeys ks))) \/
  exists e, Forall (fun y => y = Raise e) (map (fun k => key_Verify k m x) (map snd (ks_vkeys ks))).
Proof.
  intros I. assert (T : forall k, In k (map snd (ks_vkeys ks)) -> key_type k = ks_type ks /\ exists h, key_hash_id k = Ok h).
  { intros k H. apply in_map_iff in H as ([o k'] & X & H). cbn in X. subst k'. split; [apply (inv_type ks I o k H)|]. destruct (inv_hash1 ks I o k H) as (h & _ & A & _). exists h. exact A. }
  assert (G : (forall k, In k (map snd (ks_vkeys ks)) -> exists b, key_Verify k m x = Ok b) \/ exists e, forall k, In k (map snd (ks_vkeys ks)) -> key_Verify k m x = Raise e).
  { revert T. destruct (ks_type ks) eqn:ET; intros T.
    all: try (right; exists AttributeError; intros k HI; destruct (T k HI) as [A _]; destruct k; (discriminate A || reflexivity)).
    all: try (left; intros k HI; destruct (T k HI) as [A _]; destruct k; (discriminate A || (eexists; reflexivity))).
    all: try (left; intros k HI; destruct (T k HI) as [A (h & B)]; destruct k as [|k| | | |]; try discriminate A; cbn [key_Verify key_hash_id] in *;
          unfold hmac_hash_id in B; apply bind_Ok in B as (y & B & _); unfold HmacKey_Verify, HmacKey_Sign; rewrite B; eexists; reflexivity).
    all: destruct (ParseDsaSig x) as [[a b]|e] eqn:EP; [left | destruct (is_keyczar_error e) eqn:EK; [left | right; exists e]];
          intros k HI; destruct (T k HI) as [A _]; destruct k; try discriminate A; cbn [key_Verify]; unfold DsaPublicKey_Verify; rewrite EP, ?EK; try (eexists; reflexivity); reflexivity. }
  destruct G as [G|[e G]]; [left | right; exists e]; apply Forall_forall; intros y HY; apply in_map_iff in HY as (k & <- & HI); apply G; exact HI.
Qed.

Lemma eqv_same r ks ks' : eqv r ks ks' -> wfd ks -> wfd ks' -> inv ks -> same_set ks ks'.
Proof.
  intros E W W' I.
  assert (HK : forall h, GetKey_hash ks' h = GetKey_hash ks h) by (intros h; unfold GetKey_hash; rewrite (e_hk r ks ks' E); reflexivity).
  assert (PK : primary_key ks' = primary_key ks).
  { unfold primary_key, GetKey_version. rewrite (e_pr r ks ks' E). destruct (ks_primary ks) as [p|] eqn:EP; cbn [option_map]; [|reflexivity].
    rewrite (eqv_key r ks ks' p E W W'), (e_objs r ks ks' E p (w_pr ks W p EP)). reflexivity. }
  assert (PH : forall h, ParseHeader ks' h = ParseHeader ks h).
  { intros h. unfold ParseHeader. destruct (index h 0); cbn [bind]; [|reflexivity]. destruct (negb _); [reflexivity | apply HK]. }
  assert (IV : forall h s d n, InternalVerify ks' h s d n = InternalVerify ks h s d n) by (intros; unfold InternalVerify; rewrite PH; reflexivity).
  assert (IS : forall e d n, InternalSign e ks' d n = InternalSign e ks d n) by (intros; unfold InternalSign; rewrite PK; reflexivity).
  split; [apply (e_fields r ks ks' E)|]. repeat apply conj.
  - intros n. unfold ks_meta. cbn [m_versions].
    assert (AM : forall objs (l : list (Z * nat)), assoc Z.eqb (map (fun p => (fst p, deref objs (snd p))) l) n = option_map (deref objs) (assoc Z.eqb l n)).
    { intros objs. induction l as [|[a b] l IH]; cbn [map fst snd assoc]; [reflexivity|]. destruct (a =? n); [reflexivity | exact IH]. }
    rewrite !AM, (e_mv r ks ks' E). destruct (assoc Z.eqb (ks_mvers ks) n) as [o|] eqn:A; cbn [option_map]; [|reflexivity]. f_equal. apply (e_objs r ks ks' E).
    apply (w_mr ks W n o), (assoc_In Z.eqb_eq). exact A.
  - intros n. unfold ring_of. rewrite (e_mv r ks ks' E). destruct (assoc Z.eqb (ks_mvers ks) n) as [o|] eqn:A; cbn [option_map]; [|reflexivity].
    rewrite (eqv_key r ks ks' o E W W'), (e_objs r ks ks' E o); [reflexivity|]. apply (w_mr ks W n o), (assoc_In Z.eqb_eq). exact A.
  - intros c d. unfold Decrypt. destruct (apply_codec d c); cbn [bind]; [|reflexivity]. destruct (_ <? _); [reflexivity|]. rewrite PH. reflexivity.
  - intros m s d. unfold Verify. destruct (apply_codec d s); cbn [bind]; [|reflexivity]. destruct (_ <? _); [reflexivity|]. apply IV.
  - intros m n d. unfold AttachedVerify. destruct (apply_codec d m) as [x|]; cbn [bind]; [|reflexivity]. destruct (UnpackByteArray x HEADER_SIZE) as [[y z]|]; cbn [bind]; [|reflexivity]. rewrite IV. reflexivity.
  - intros e m d. unfold Encrypt. rewrite PK. reflexivity.
  - intros e m d. unfold Sign. rewrite PK, IS. reflexivity.
  - intros e m n d. unfold AttachedSign. rewrite PK, IS. reflexivity.
  - intros e m d. unfold UnversionedSign. rewrite PK. reflexivity.
  - intros m s d. unfold UnversionedVerify. destruct (apply_codec d s) as [x|]; cbn [bind]; [|reflexivity].
    rewrite !verify_any_keys. set (f := fun k => key_Verify k m x).
    assert (PK' : Permutation (map f (map snd (ks_vkeys ks))) (map f (map snd (ks_vkeys ks')))).
    { apply Permutation_map. pose proof (Permutation_map snd (e_vk r ks ks' E)) as X. rewrite map_map in X. exact X. }
    destruct (verify_uniform ks m x I) as [U|[e U]]; fold f in U.
    + rewrite !any_true by (exact U || apply (Permutation_Forall PK' U)). f_equal. apply eq_true_iff_eq. rewrite !existsb_exists. split; intros (y & HI & HT); exists y; (split; [|exact HT]).
      * apply (Permutation_in _ (Permutation_sym PK') HI).
      * apply (Permutation_in _ PK' HI).
    + pose proof (Permutation_Forall PK' U) as U'. pose proof (Permutation_length PK') as L. destruct U as [|y l Y _], U' as [|y' l' Y' _]; try discriminate L; [reflexivity|]. cbn [any_of]. rewrite Y, Y'. reflexivity.
Qed.

(** *** Opening *)

Lemma nth_perm {A} (l l' : list A) : Permutation l l' ->
  exists r, (forall a b, r a = r b -> a = b) /\ (forall o, (length l <= o)%nat -> r o = o) /\ (forall o, (o < length l)%nat -> (r o < length l)%nat) /\
    (forall o, nth_error l (r o) = nth_error l' o).
Proof.
  intros P. pose proof (Permutation_length P) as L. apply Permutation_nth_error_bis in P as (f & INJ & BF & N).
  exists (fun o => if (o <? length l)%nat then f o else o). repeat apply conj.
  - intros a b. destruct (Nat.ltb_spec a (length l)) as [LA|LA], (Nat.ltb_spec b (length l)) as [LB|LB]; intros H; [apply INJ; exact H | | | exact H].
    + specialize (BF a LA). lia.
    + specialize (BF b LB). lia.
  - intros o H. destruct (Nat.ltb_spec o (length l)) as [LA|LA]; [lia | reflexivity].
  - intros o H. destruct (Nat.ltb_spec o (length l)) as [LA|LA]; [apply BF; exact LA | lia].
  - intros o. destruct (Nat.ltb_spec o (length l)) as [LA|LA]; [symmetry; apply N|]. rewrite !(proj2 (nth_error_None _ _)) by lia. reflexivity.
Qed.

Lemma combine_seq_In {A} (l : list A) o k : forall s, In (o, k) (combine (seq s (length l)) l) <-> (s <= o)%nat /\ nth_error l (o - s) = Some k.
Proof.
  induction l as [|a l IH]; intros s; cbn [length seq combine In].
  - split; [intros [] | intros [_ H]; destruct (o - s)%nat; discriminate].
  - rewrite (IH (S s)). split.
    + intros [H|[H1 H2]]; [apply pair_inj in H as [-> ->]; rewrite Nat.sub_diag; split; [lia | reflexivity]|].
      split; [lia|]. replace (o - s)%nat with (S (o - S s)) by lia. exact H2.
    + intros [H1 H2]. destruct (Nat.eq_dec o s) as [->|N]; [left; rewrite Nat.sub_diag in H2; cbn in H2; apply Some_inj in H2 as ->; reflexivity|].
      right. split; [lia|]. replace (o - s)%nat with (S (o - S s)) in H2 by lia. exact H2.
Qed.

Lemma combine_In_seq {A} (l : list A) o k : forall s, In (k, o) (combine l (seq s (length l))) <-> (s <= o)%nat /\ nth_error l (o - s) = Some k.
Proof.
  induction l as [|a l IH]; intros s; cbn [length seq combine In].
  - split; [intros [] | intros [_ H]; destruct (o - s)%nat; discriminate].
  - rewrite (IH (S s)). split.
    + intros [H|[H1 H2]]; [apply pair_inj in H as [-> ->]; rewrite Nat.sub_diag; split; [lia | reflexivity]|].
      split; [lia|]. replace (o - s)%nat with (S (o - S s)) by lia. exact H2.
    + intros [H1 H2]. destruct (Nat.eq_dec o s) as [->|N]; [left; rewrite Nat.sub_diag in H2; cbn in H2; apply Some_inj in H2 as ->; reflexivity|].
      right. split; [lia|]. replace (o - s)%nat with (S (o - S s)) in H2 by lia. exact H2.
Qed.

Lemma fst_combine {A B} (l : list A) : forall (l' : list B), length l = length l' -> map fst (combine l l') = l.
Proof. induction l as [|a l IH]; intros [|b l'] H; cbn in *; try discriminate; [reflexivity|]. f_equal. apply IH. lia. Qed.

Lemma snd_combine {A B} (l : list A) : forall (l' : list B), length l = length l' -> map snd (combine l l') = l'.
Proof. induction l as [|a l IH]; intros [|b l'] H; cbn in *; try discriminate; [reflexivity|]. f_equal. apply IH. lia. Qed.

Lemma NoDup_add_ids l : forall hk, NoDup (map fst hk) -> NoDup (map fst (fold_left add_id l hk)).
Proof.
  induction l as [|k l IH]; intros hk H; cbn [fold_left]; [exact H|]. apply IH. unfold add_id. destruct (key_hash_id k); [apply (NoDup_dict_set str_eqb str_eqb_eq) |]; exact H.
Qed.

Lemma Forall2_nth {A B} (R : A -> B -> Prop) l l' : Forall2 R l l' -> forall o a, nth_error l o = Some a -> exists b, nth_error l' o = Some b /\ R a b.
Proof. induction 1 as [|x y l l' H F IH]; intros [|o] a E; try discriminate; cbn in E; [apply Some_inj in E as <-; exists y; split; [reflexivity | exact H] | apply (IH o a E)]. Qed.

Lemma loaded_fun rd t v k k' : loaded rd t v k -> loaded rd t v k' -> k = k'.
Proof. intros (s & h & A & B & _) (s' & h' & A' & B' & _). rewrite A in A'. apply Ok_inj in A' as <-. rewrite B in B'. apply Ok_inj in B'. exact B'. Qed.

(** What an opening in some order makes. *)
Lemma open_in_ok order c rd ks : (forall l, Permutation (order l) l) -> open_in order c rd = Ok ks ->
  exists s m l, rd_meta rd = Ok s /\ meta_Read s = Ok m /\ IsAcceptablePurpose c (m_purpose m) = true /\
    (m_encrypted m = true -> rd_encrypted rd = true) /\
    Forall2 (loaded rd (m_type m)) (order (meta_versions m)) l /\
    ks_name ks = m_name m /\ ks_purpose ks = m_purpose m /\ ks_type ks = m_type m /\ ks_encrypted ks = m_encrypted m /\
    ks_objs ks = order (meta_versions m) /\
    ks_mvers ks = combine (map v_num (order (meta_versions m))) (seq 0 (length (order (meta_versions m)))) /\
    ks_vkeys ks = combine (seq 0 (length (order (meta_versions m)))) l /\
    ks_hkeys ks = fold_left add_id l [] /\ find_primary 0 (order (meta_versions m)) None (ks_primary ks).
Proof.
  intros _. unfold open_in. intros H. apply bind_Ok in H as (s & HS & H). apply bind_Ok in H as (m & HM & H).
  destruct (IsAcceptablePurpose c (m_purpose m)) eqn:EA; [|discriminate]. cbn [negb] in H.
  destruct (m_encrypted m && negb (rd_encrypted rd)) eqn:EE; [discriminate|].
  apply bind_Ok in H as ([[p vk] hk] & HL & H). apply Ok_inj in H as <-.
  destruct (load_keys_ok _ _ _ _ _ _ _ _ _ _ HL) as (l & F & -> & -> & FP).
  exists s, m, l. repeat split; try assumption. intros X. rewrite X in EE. destruct (rd_encrypted rd); [reflexivity | discriminate].
Qed.

(** Insertion order is one of the orders. *)
Lemma meta_nums m : meta_wf m -> map fst (m_versions m) = map v_num (meta_versions m).
Proof.
  intros [_ W]. unfold meta_versions. rewrite map_map. apply map_ext_in. intros p H. rewrite Forall_forall in W. symmetry. apply (W p H).
Qed.

Lemma open_in_insertion c rd : open_in (fun l => l) c rd = open_keyset c rd.
Proof.
  unfold open_in, open_keyset. destruct (rd_meta rd) as [s|e]; cbn [bind]; [|reflexivity]. destruct (meta_Read s) as [m|e] eqn:EM; cbn [bind]; [|reflexivity].
  rewrite (meta_nums m (meta_Read_wf s m EM)). reflexivity.
Qed.

Lemma wfd_open_in order c rd ks : (forall l, Permutation (order l) l) -> open_in order c rd = Ok ks -> wfd ks.
Proof.
  intros P H. destruct (open_in_ok order c rd ks P H) as (s & m & l & _ & HM & _ & _ & F & _ & _ & _ & _ & EO & EM & EV & EH & FP).
  pose proof (meta_Read_wf s m HM) as W. pose proof (Forall2_length' _ _ _ F) as HL. set (vs := order (meta_versions m)) in *.
  constructor.
  - rewrite EM, fst_combine by (rewrite map_length, seq_length; reflexivity). apply (Permutation_NoDup (l := map v_num (meta_versions m))); [apply Permutation_map, Permutation_sym, P|].
    rewrite <- (meta_nums m W). apply W.
  - rewrite EV, fst_combine by (rewrite seq_length; exact HL). apply seq_NoDup.
  - rewrite EH. apply NoDup_add_ids. constructor.
  - intros o H'. unfold ks_versions in H'. rewrite EV, fst_combine in H' by (rewrite seq_length; exact HL). rewrite EO. apply in_seq in H'. lia.
  - intros n o H'. rewrite EM in H'. apply in_combine_r in H'. apply in_seq in H'. rewrite EO. lia.
  - intros o H'. destruct (find_primary_none _ _ _ FP) as [_ X]. destruct (X o H') as (i & v & -> & HN & _). rewrite EO. apply nth_error_Some. cbn. congruence.
Qed.

Lemma eqv_open order c rd ks ks' : (forall l, Permutation (order l) l) -> open_keyset c rd = Ok ks -> ids_distinct ks -> open_in order c rd = Ok ks' ->
  exists r, eqv r ks ks'.
Proof.
  intros P H D H'. rewrite <- open_in_insertion in H.
  destruct (open_in_ok _ c rd ks (fun l => Permutation_refl l) H) as (s & m & l & HS & HM & _ & _ & F & N1 & N2 & N3 & N4 & EO & EM & EV & EH & FP).
  destruct (open_in_ok _ c rd ks' P H') as (s' & m' & l' & HS' & HM' & _ & _ & F' & N1' & N2' & N3' & N4' & EO' & EM' & EV' & EH' & FP').
  rewrite HS in HS'. apply Ok_inj in HS' as <-. rewrite HM in HM'. apply Ok_inj in HM' as <-. cbv beta in *.
  pose proof (wfd_open_in _ c rd ks (fun l => Permutation_refl l) H) as W. pose proof (wfd_open_in _ c rd ks' P H') as W'.
  set (ms := meta_versions m) in *. specialize (P ms). set (vs := order ms) in *.
  pose proof (Forall2_length' _ _ _ F) as HL. pose proof (Forall2_length' _ _ _ F') as HL'. pose proof (Permutation_length P) as LL.
  destruct (nth_perm vs ms P) as (r & R1 & R2 & R3 & R4). exists r.
  assert (KN : forall o k, nth_error l o = Some k -> nth_error l' (r o) = Some k).
  { intros o k E. assert (EV0 : exists v, nth_error ms o = Some v).
    { destruct (nth_error ms o) as [v|] eqn:X; [exists v; reflexivity|]. apply nth_error_None in X. assert (nth_error l o = None) by (apply nth_error_None; lia). congruence. }
    destruct EV0 as [v EV0]. destruct (Forall2_nth _ _ _ F o v EV0) as (k1 & E1 & L1). rewrite E in E1. apply Some_inj in E1 as <-.
    rewrite <- R4 in EV0. destruct (Forall2_nth _ _ _ F' (r o) v EV0) as (k2 & E2 & L2). rewrite E2. f_equal. apply (loaded_fun _ _ _ _ _ L2 L1). }
  assert (PV : Permutation (map (fun p => (r (fst p), snd p)) (ks_vkeys ks)) (ks_vkeys ks')).
  { apply NoDup_Permutation_bis.
    - apply (NoDup_map_inv fst). rewrite map_map. cbn [fst]. rewrite <- (map_map fst r). apply FinFun.Injective_map_NoDup; [exact R1 | apply W].
    - rewrite map_length, EV, EV', !combine_length, !seq_length. lia.
    - intros [o k] HI. apply in_map_iff in HI as ([o1 k1] & X & HI). cbn [fst snd] in X. apply pair_inj in X as [<- ->].
      rewrite EV, HL in HI. apply combine_seq_In in HI as [_ HI]. rewrite Nat.sub_0_r in HI. rewrite EV', HL'. apply combine_seq_In. rewrite Nat.sub_0_r. split; [lia | apply KN; exact HI]. }
  assert (PL : Permutation l l').
  { apply (Permutation_map snd) in PV. rewrite map_map in PV. cbn [snd] in PV. rewrite EV, EV' in PV. rewrite !snd_combine in PV by (rewrite seq_length; assumption). exact PV. }
  constructor.
  - rewrite N1, N2, N3, N4, N1', N2', N3', N4'. repeat split.
  - exact R1.
  - intros o HO. rewrite EO in HO. apply R2. lia.
  - rewrite EO, EO'. exact LL.
  - intros o HO. rewrite EO in *. rewrite EO'. unfold deref. specialize (R4 o). destruct (nth_error ms o) as [v|] eqn:X.
    + rewrite (nth_error_nth _ _ _ X), (nth_error_nth _ _ _ R4). reflexivity.
    + apply nth_error_None in X. lia.
  - intros n. destruct (assoc Z.eqb (ks_mvers ks) n) as [o|] eqn:A; cbn [option_map].
    + apply (assoc_NoDup Z.eqb_eq); [apply W'|]. apply (assoc_In Z.eqb_eq) in A. rewrite EM in A. rewrite EM'.
      rewrite <- (map_length v_num) in A. rewrite <- (map_length v_num). apply combine_In_seq in A as [_ A]. apply combine_In_seq. rewrite Nat.sub_0_r in *. split; [lia|].
      rewrite nth_error_map in *. rewrite R4. exact A.
    + apply (assoc_None Z.eqb_eq). apply (assoc_None Z.eqb_eq) in A. intros C. apply A. rewrite EM in *. rewrite EM' in C.
      rewrite fst_combine in * by (rewrite map_length, seq_length; reflexivity). apply (Permutation_in _ (Permutation_map v_num P) C).
  - exact PV.
  - intros h. rewrite EH, EH'.
    assert (U : forall k k', In k l -> In k' l -> key_hash_id k = Ok h -> key_hash_id k' = Ok h -> k = k').
    { unfold ids_distinct in D. rewrite <- map_map, EV, snd_combine in D by (rewrite seq_length; assumption). revert D. clear. induction l as [|a l IH]; intros D k k' A B E E'; [destruct A|].
      cbn [map] in D. inversion D as [|? ? X Y]; subst. destruct A as [A|A], B as [B|B]; subst; [reflexivity | | | apply IH; assumption].
      - exfalso. apply X. rewrite E, <- E'. apply in_map. exact B.
      - exfalso. apply X. rewrite E', <- E. apply in_map. exact A. }
    destruct (assoc str_eqb (fold_left add_id l []) h) as [k|] eqn:A.
    + destruct (fold_add_id l [] h k A) as [[HI HH]|C]; [|discriminate C].
      destruct (fold_add_id_has l' [] h k (or_introl (conj (Permutation_in _ PL HI) HH))) as (k' & A'). rewrite A'. f_equal.
      destruct (fold_add_id l' [] h k' A') as [[HI' HH']|C]; [|discriminate C]. apply U; try assumption. apply (Permutation_in _ (Permutation_sym PL) HI').
    + destruct (assoc str_eqb (fold_left add_id l' []) h) as [k'|] eqn:A'; [|reflexivity]. exfalso.
      destruct (fold_add_id l' [] h k' A') as [[HI' HH']|C]; [|discriminate C].
      destruct (fold_add_id_has l [] h k' (or_introl (conj (Permutation_in _ (Permutation_sym PL) HI') HH'))) as (k & A2). congruence.
  - destruct (find_primary_none _ _ _ FP) as [P1 P2]. destruct (find_primary_none _ _ _ FP') as [P1' P2'].
    destruct (ks_primary ks) as [q|]; cbn [option_map].
    + destruct (P2 q eq_refl) as (i & v & -> & X & Y). cbn. rewrite <- R4 in X. apply (P1' _ _ X Y).
    + destruct (ks_primary ks') as [q|]; [|reflexivity]. exfalso. destruct (P2' q eq_refl) as (i & v & -> & X & Y).
      apply nth_error_In in X. apply (Permutation_in _ P), In_nth_error in X as [j X]. discriminate (P1 j v X Y).
Qed.

(** ** Theorems *)

(** A set can be opened in one order if and only if it can be opened in every order. *)
Theorem C89_opening : forall order c rd, (forall l, Permutation (order l) l) ->
  ((exists ks, open_in order c rd = Ok ks) <-> (exists ks, open_keyset c rd = Ok ks)).
Proof.
  assert (G : forall o1 o2 c rd, (forall l, Permutation (o1 l) l) -> (forall l, Permutation (o2 l) l) -> (exists ks, open_in o1 c rd = Ok ks) -> exists ks, open_in o2 c rd = Ok ks).
  { intros o1 o2 c rd P1 P2 [ks H]. destruct (open_in_ok o1 c rd ks P1 H) as (s & m & l & HS & HM & HA & HE & F & _ & _ & _ & _ & _ & _ & _ & _ & FP).
    assert (P : Permutation (o2 (meta_versions m)) (o1 (meta_versions m))) by (apply (Permutation_trans (P2 _) (Permutation_sym (P1 _)))).
    set (v1 := o1 (meta_versions m)) in *. set (v2 := o2 (meta_versions m)) in *. destruct (find_primary_none _ _ _ FP) as [Q1 _].
    assert (U : forall i j v w, nth_error v1 i = Some v -> nth_error v1 j = Some w -> v_status v = PRIMARY -> v_status w = PRIMARY -> i = j).
    { intros i j v w A B X Y. rewrite (Q1 i v A X) in Q1. specialize (Q1 j w B Y). apply Some_inj in Q1. cbn in Q1. exact Q1. }
    assert (F2 : exists l2, Forall2 (loaded rd (m_type m)) v2 l2).
    { assert (L : Forall (fun v => exists k, loaded rd (m_type m) v k) v2).
      { apply Forall_forall. intros v HI. apply (Permutation_in _ P), In_nth_error in HI as [i HI]. destruct (Forall2_nth _ _ _ F i v HI) as (k & _ & X). exists k. exact X. }
      clear -L. induction L as [|v vs [k X] L [l2 IH]]; [exists []; constructor | exists (k :: l2); constructor; assumption]. }
    destruct F2 as [l2 F2]. destruct (load_keys_intro rd (m_type m) v2 l2 F2 0%nat None [] []) as (p & hk & HL).
    - intros C. contradiction.
    - intros i j v w A B X Y. destruct (nth_perm v1 v2 (Permutation_sym P)) as (r & R1 & _ & _ & R4). rewrite <- R4 in A, B. apply R1. apply (U _ _ _ _ A B X Y).
    - unfold open_in. rewrite HS. cbn [bind]. rewrite HM. cbn [bind]. rewrite HA. cbn [negb]. destruct (m_encrypted m && negb (rd_encrypted rd)) eqn:E.
      { apply andb_true_iff in E as [E1 E2]. rewrite (HE E1) in E2. discriminate. }
      fold v2. rewrite HL. cbn [bind]. eexists. reflexivity. }
  intros order c rd P. split; intros H.
  - destruct (G order (fun l => l) c rd P (fun l => Permutation_refl l) H) as [ks K]. exists ks. rewrite <- open_in_insertion. exact K.
  - destruct H as [ks K]. apply (G (fun l => l) order c rd (fun l => Permutation_refl l) P). exists ks. rewrite open_in_insertion. exact K.
Qed.
Print Assumptions C89_opening.

(** Open a set whose identifiers differ, in any order, and run any history of calls on it, with the
    dictionaries reordered at every moment: every call ends as it does with insertion order, and the set
    reached is the same for its user. *)
Theorem C89_any_order : forall c rd ks ks1 ops ks2 rs, open_keyset c rd = Ok ks -> ids_distinct ks ->
  opens c rd ks1 -> runs ks1 ops ks2 rs ->
  rs = results ks ops /\ same_set (run ks ops) ks2.
Proof.
  intros c rd ks ks1 ops ks2 rs H D (order & k0 & P & H1 & RE) RU. destruct (eqv_open order c rd ks k0 P H D H1) as [r E].
  pose proof (wfd_open_in order c rd k0 P H1) as W0. destruct (eqv_reordered r ks k0 ks1 E W0 RE) as [E1 W1].
  assert (W : wfd ks) by (apply (wfd_open_in (fun l => l) c rd ks (fun l => Permutation_refl l)); rewrite open_in_insertion; exact H).
  destruct (eqv_runs r ks1 ops ks2 rs RU ks E1 W W1) as (-> & E2 & W2 & W3). split; [reflexivity|]. apply (eqv_same r); try assumption. apply inv_run, (inv_open c rd ks H).
Qed.
Print Assumptions C89_any_order.

Lemma load_keys_meta a b key enc t vs : forall o p vk hk, load_keys (MkReader a key enc) t o vs p vk hk = load_keys (MkReader b key enc) t o vs p vk hk.
Proof.
  induction vs as [|v vs IH]; intros o p vk hk; cbn [load_keys rd_key]; [reflexivity|]. destruct (if status_eqb (v_status v) PRIMARY then _ else _); cbn [bind]; [|reflexivity].
  destruct (key (v_num v)); cbn [bind]; [|reflexivity]. destruct (ReadKey t _); cbn [bind]; [|reflexivity]. destruct (key_hash_id _); cbn [bind]; [apply IH | reflexivity].
Qed.

(** What the set writes as metadata may list the versions in another order; the set that opens from it
    is the same. *)
Theorem C89_written : forall c rd ks ks1 ops ks2 rs, open_keyset c rd = Ok ks -> ids_distinct ks ->
  opens c rd ks1 -> runs ks1 ops ks2 rs -> text_ok (ks_name (run ks ops)) ->
  exists s s2, meta_str (ks_meta (run ks ops)) = Ok s /\ meta_str (ks_meta ks2) = Ok s2 /\
    forall c' key enc k, open_keyset c' (MkReader (Ok s) key enc) = Ok k -> ids_distinct k ->
    exists k2, open_keyset c' (MkReader (Ok s2) key enc) = Ok k2 /\ same_set k k2.
Proof.
  intros c rd ks ks1 ops ks2 rs H D (order & k0 & P & H1 & RE) RU HN. destruct (eqv_open order c rd ks k0 P H D H1) as [r E].
  pose proof (wfd_open_in order c rd k0 P H1) as W0. destruct (eqv_reordered r ks k0 ks1 E W0 RE) as [E1 W1].
  assert (W : wfd ks) by (apply (wfd_open_in (fun l => l) c rd ks (fun l => Permutation_refl l)); rewrite open_in_insertion; exact H).
  destruct (eqv_runs r ks1 ops ks2 rs RU ks E1 W W1) as (_ & E2 & W2 & W3). clear RU RE E E1 W0 W1 W H1 P D k0 order ks1.
  pose proof (inv_run ks ops (inv_open c rd ks H)) as I. set (a := run ks ops) in *. clearbody a. clear H ks ops rs c rd.
  assert (PM : Permutation (m_versions (ks_meta ks2)) (m_versions (ks_meta a))).
  { apply Permutation_sym. cbn [ks_meta m_versions]. apply NoDup_Permutation.
    - apply (NoDup_map_inv fst). rewrite map_map. cbn [fst]. apply W2.
    - apply (NoDup_map_inv fst). rewrite map_map. cbn [fst]. apply W3.
    - intros [n v]. rewrite !in_map_iff. split.
      + intros ([n1 o] & X & HI). cbn [fst snd] in X. apply pair_inj in X as [-> <-]. exists (n, r o). cbn [fst snd].
        split; [f_equal; apply (e_objs r a ks2 E2), (w_mr a W2 n o HI)|]. apply (assoc_In Z.eqb_eq). rewrite (e_mv r a ks2 E2), (assoc_NoDup Z.eqb_eq (w_mv a W2) HI). reflexivity.
      + intros ([n1 o] & X & HI). cbn [fst snd] in X. apply pair_inj in X as [-> <-]. pose proof (assoc_NoDup Z.eqb_eq (w_mv ks2 W3) HI) as A. rewrite (e_mv r a ks2 E2) in A.
        destruct (assoc Z.eqb (ks_mvers a) n) as [o1|] eqn:A1; [|discriminate]. cbn [option_map] in A. apply Some_inj in A as <-. apply (assoc_In Z.eqb_eq) in A1. exists (n, o1). cbn [fst snd].
        split; [f_equal; symmetry; apply (e_objs r a ks2 E2), (w_mr a W2 n o1 A1) | exact A1]. }
  destruct (e_fields r a ks2 E2) as (F1 & F2 & F3 & F4). pose proof (ks_meta_wf a I) as WM.
  assert (WM2 : meta_wf (ks_meta ks2)).
  { destruct WM as [X Y]. split; [apply (Permutation_NoDup (Permutation_map fst (Permutation_sym PM)) X) | apply (Permutation_Forall (Permutation_sym PM) Y)]. }
  eexists. eexists. split; [apply meta_str_eq|]. split; [apply meta_str_eq|].
  match goal with |- forall c' key enc k, open_keyset c' (MkReader (Ok ?x) key enc) = _ -> _ -> exists k2, open_keyset c' (MkReader (Ok ?y) key enc) = _ /\ _ => set (s := x); set (s2 := y) end.
  assert (R1 : meta_Read s = Ok (ks_meta a)) by (apply meta_rt; [exact WM | exact HN | apply meta_str_eq]).
  assert (R2 : meta_Read s2 = Ok (ks_meta ks2)) by (apply meta_rt; [exact WM2 | cbn [ks_meta m_name]; rewrite F1; exact HN | apply meta_str_eq]).
  clearbody s s2. intros c' key enc k HK DK.
  assert (DEC : forall u v : list kversion, {u = v} + {u <> v}) by (repeat decide equality).
  set (order := fun l => if DEC l (meta_versions (ks_meta a)) then meta_versions (ks_meta ks2) else l).
  assert (PO : forall l, Permutation (order l) l).
  { intros l. unfold order. destruct (DEC l _) as [->|_]; [apply (Permutation_map snd PM) | reflexivity]. }
  assert (EO : open_in order c' (MkReader (Ok s) key enc) = open_keyset c' (MkReader (Ok s2) key enc)).
  { unfold open_in, open_keyset. cbn [rd_meta rd_key rd_encrypted bind]. rewrite R1, R2. cbn [bind]. rewrite (meta_nums _ WM2). unfold order.
    destruct (DEC (meta_versions (ks_meta a)) (meta_versions (ks_meta a))) as [_|C]; [|contradiction]. cbn [ks_meta m_name m_purpose m_type m_encrypted]. rewrite F1, F2, F3, F4.
    rewrite (load_keys_meta (Ok s) (Ok s2)). reflexivity. }
  destruct (proj2 (C89_opening order c' (MkReader (Ok s) key enc) PO) (ex_intro _ k HK)) as [k2 H2]. exists k2. split; [rewrite <- EO; exact H2|].
  destruct (eqv_open order c' _ k k2 PO HK DK H2) as [r' E']. apply (eqv_same r'); [exact E' | | apply (wfd_open_in order _ _ _ PO H2) | apply (inv_open _ _ _ HK)].
  apply (wfd_open_in (fun l => l) c' (MkReader (Ok s) key enc) k (fun l => Permutation_refl l)). rewrite open_in_insertion. exact HK.
Qed.
Print Assumptions C89_written.

(** The condition on the identifiers is needed: of two different keys with one identifier the set uses
    the one it loads last, so that the order decides whether a signature is valid. *)
Theorem C89_clash_depends_on_order : exists rd ks ks' msg sig, open_keyset Verifier rd = Ok ks /\ opens Verifier rd ks' /\
  Verify ks msg sig None = Ok true /\ Verify ks' msg sig None = Ok false.
Proof.
  pose (ks' := match open_in (@rev kversion) Verifier clash_reader with Ok ks => ks | Raise _ => hmac_set end).
  pose (sig := match ring_of clash_set 2 with Some (_, k) => match key_header k, key_Sign zero_env k (bs "message" ++ [chr 0]) with Ok h, Ok s => h ++ s | _, _ => [] end | None => [] end).
  exists clash_reader, clash_set, ks', (bs "message"), sig. split; [vm_compute; reflexivity|]. split; [|split; vm_compute; reflexivity].
  exists (@rev kversion), ks'. split; [intros l; apply Permutation_sym, Permutation_rev|]. split; [vm_compute; reflexivity|].
  exists (ks_mvers ks'), (ks_vkeys ks'), (ks_hkeys ks'). repeat split; reflexivity.
Qed.
Print Assumptions C89_clash_depends_on_order.

(** A set with two versions, opened in the other order, then changed and reordered. *)
Example C89_case : exists ks1 ks2 rs, opens GenericKeyczar hmac_reader ks1 /\ ks_objs ks1 <> ks_objs hmac_set /\ ids_distinct hmac_set /\
  runs ks1 [OpPromote 1; OpPromote 2; OpDemote 1; OpDemote 2] ks2 rs /\ ks_mvers ks2 <> ks_mvers ks1 /\ rs = [Ok tt; Ok tt; Ok tt; Ok tt] /\
  text_ok (ks_name (run hmac_set [OpPromote 1; OpPromote 2; OpDemote 1; OpDemote 2])).
Proof.
  pose (ks1 := match open_in (@rev kversion) GenericKeyczar hmac_reader with Ok ks => ks | Raise _ => hmac_set end).
  assert (E1 : open_in (@rev kversion) GenericKeyczar hmac_reader = Ok ks1) by (vm_compute; reflexivity).
  assert (RF : forall ks, reordered ks ks) by (intros ks; exists (ks_mvers ks), (ks_vkeys ks), (ks_hkeys ks); repeat split; try reflexivity; destruct ks; reflexivity).
  pose (a := run ks1 [OpPromote 1; OpPromote 2; OpDemote 1; OpDemote 2]).
  exists ks1, (set_keys (set_mvers a (rev (ks_mvers a))) (ks_vkeys a) (ks_hkeys a)), [Ok tt; Ok tt; Ok tt; Ok tt].
  split; [exists (@rev kversion), ks1; split; [intros l; apply Permutation_sym, Permutation_rev | split; [exact E1 | apply RF]]|].
  split; [vm_compute; discriminate|]. split; [exact C29_case|]. split.
  - do 4 (refine (RunsCall _ _ _ _ _ _ _ _ (RF _) (surjective_pairing _) _)). apply RunsEnd.
    exists (rev (ks_mvers a)), (ks_vkeys a), (ks_hkeys a). split; [apply Permutation_sym, Permutation_rev|]. split; [reflexivity|]. split; [reflexivity|]. vm_compute. reflexivity.
  - split; [vm_compute; discriminate|]. split; [reflexivity|]. exact (tx_ok "Test").
Qed.
