(** * Props_Threads2: threads that change the set while others use it (C90). *)
From Coq Require Import Strings.String.
From Coq Require Import List ZArith NArith Bool Lia ZifyBool ZifyNat ZifyN.
From Coq.Init Require Import Byte.
From Verif Require Import PyBase PyFacts Util UtilFacts Base64 Json JsonFacts KeyInfo KeyData SymKeys AsymKeys Keys Keyczar KeyRing KeyczarFacts Disk DiskFacts
  Props_Keyset Props_Sign Threads Props_Threads.
Import ListNotations.
Local Open Scope Z_scope.
Ltac Zify.zify_post_hook ::= idtac.

(** ** Specification *)

(** What a thread does: it changes the set or uses it. *)
Inductive job := Change (o : op) | Use (c : call).

Definition running (j : job) : thread (unit + answer) :=
  match j with Change o => tmap inl (changing o) | Use c => tmap inr (calling c) end.

(** The calls that name version [n], and those that can move the primary version. *)
Definition names (o : op) (n : Z) : Prop := o = OpPromote n \/ o = OpDemote n \/ o = OpRevoke n.
Definition steady (o : op) : Prop := match o with OpAdd _ s _ => s <> PRIMARY | OpRevoke _ => True | _ => False end.

(** The other threads of [js] cannot change the outcome [x] of this use. *)
Definition settled (js : list job) (c : call) (x : answer) : Prop :=
  match c with
  | CDecrypt _ _ | CVerify _ _ _ | CAttachedVerify _ _ _ => True
  | CUnversionedVerify _ _ _ => x = ATruth true \/ forall ds s size, ~ In (Change (OpAdd ds s size)) js
  | _ => forall o, In (Change o) js -> steady o
  end.

(** ** What every access keeps *)

Inductive keeps {A} (J : keyset -> Prop) (P : res A -> Prop) : thread A -> Prop :=
| KeepsFinished r : P r -> keeps J P (Finished r)
| KeepsAccess f : (forall ks, J ks -> J (fst (f ks))) -> (forall ks, J ks -> keeps J P (snd (f ks))) -> keeps J P (Access f).

Lemma keeps_read {A B} (J : keyset -> Prop) (P : res A -> Prop) (g : keyset -> B) k : (forall ks, J ks -> keeps J P (k (g ks))) -> keeps J P (read g k).
Proof. intros H. constructor; intros ks HJ; cbn [fst snd]; [exact HJ | apply H, HJ]. Qed.

Lemma keeps_write {A} (J : keyset -> Prop) (P : res A -> Prop) g k : (forall ks, J ks -> J (g ks)) -> keeps J P k -> keeps J P (write g k).
Proof. intros H1 H2. constructor; intros ks HJ; cbn [fst snd]; [apply H1, HJ | exact H2]. Qed.

Lemma keeps_tmap {A B} (J : keyset -> Prop) (f : A -> B) (P : res B -> Prop) t : keeps J (fun r => P (res_map f r)) t -> keeps J P (tmap f t).
Proof.
  induction 1 as [r H|g H1 H2 IH]; cbn [tmap]; constructor; [exact H | |]; intros ks HJ; specialize (H1 ks HJ); specialize (IH ks HJ); destruct (g ks) as [ks' t']; cbn [fst snd] in *; assumption.
Qed.

Lemma keeps_turns {A X} (J : keyset -> Prop) (P : X -> res A -> Prop) (js : list X) p q : turns p q -> J (fst p) -> Forall2 (fun j t => keeps J (P j) t) js (snd p) ->
  J (fst q) /\ Forall2 (fun j t => keeps J (P j) t) js (snd q).
Proof.
  induction 1 as [p|p q r T H IH]; intros HJ F; [split; assumption|]. destruct T as [k1 k2 a f t b EF]. cbn [fst snd] in *.
  apply Forall2_app_inv_r in F as (c1 & c2 & F1 & F2 & ->). inversion F2 as [|c0 ? c2' ? A0 F3]; subst. inversion A0 as [|? X1 X2]; subst. specialize (X1 k1 HJ). specialize (X2 k1 HJ). rewrite EF in X1, X2. cbn [fst snd] in X1, X2.
  apply IH; [exact X1|]. apply Forall2_app; [exact F1|]. constructor; [exact X2 | exact F3].
Qed.

(** The state at any moment, against the state [ks] in which the threads were started. *)
Record later (ks : keyset) (js : list job) (ks' : keyset) : Prop := MkLater {
  lt_attr : ks_name ks' = ks_name ks /\ ks_purpose ks' = ks_purpose ks /\ ks_type ks' = ks_type ks /\ ks_encrypted ks' = ks_encrypted ks;
  lt_len : (length (ks_objs ks) <= length (ks_objs ks'))%nat;
  lt_num : forall o, (o < length (ks_objs ks))%nat -> v_num (deref (ks_objs ks') o) = v_num (deref (ks_objs ks) o);
  lt_vk : exists x, ks_vkeys ks' = ks_vkeys ks ++ x;
  lt_noadd : (forall ds s size, ~ In (Change (OpAdd ds s size)) js) -> ks_vkeys ks' = ks_vkeys ks;
  lt_hk : forall h k, assoc str_eqb (ks_hkeys ks) h = Some k -> assoc str_eqb (ks_hkeys ks') h = Some k;
  lt_mv : forall n o, assoc Z.eqb (ks_mvers ks) n = Some o -> assoc Z.eqb (ks_mvers ks') n = Some o \/ (assoc Z.eqb (ks_mvers ks') n = None /\ In (Change (OpRevoke n)) js);
  lt_new : forall n o, assoc Z.eqb (ks_mvers ks') n = Some o -> assoc Z.eqb (ks_mvers ks) n = Some o \/ (length (ks_objs ks) <= o)%nat;
  lt_st : forall n o, assoc Z.eqb (ks_mvers ks) n = Some o -> (forall p, In (Change p) js -> ~ names p n) ->
    (v_status (deref (ks_objs ks') o) = v_status (deref (ks_objs ks) o) \/ (v_status (deref (ks_objs ks') o) = ACTIVE /\ ks_primary ks = Some o)) /\
    (ks_primary ks' = Some o -> ks_primary ks = Some o);
  lt_pr : (forall o, In (Change o) js -> steady o) -> ks_primary ks' = ks_primary ks }.

Lemma later_self ks js : later ks js ks.
Proof.
  constructor; try (intros; reflexivity); try (intros; assumption); try lia.
  - repeat split.
  - exists []. rewrite app_nil_r. reflexivity.
  - intros n o H. left. exact H.
  - intros n o H. left. exact H.
  - intros n o _ _. split; [left; reflexivity | intros H; exact H].
Qed.

Section LATER.
Context (ks : keyset) (js : list job) (I : inv ks).
Notation J := (later ks js).

(** The object [o] may get another status: it is new, or of a version named by a call. *)
Definition free (o : nat) : Prop := (length (ks_objs ks) <= o)%nat \/ exists n p, assoc Z.eqb (ks_mvers ks) n = Some o /\ In (Change p) js /\ names p n.
Definition moves : Prop := exists o, In (Change o) js /\ ~ steady o.

Lemma free_other n o : assoc Z.eqb (ks_mvers ks) n = Some o -> (forall p, In (Change p) js -> ~ names p n) -> ~ free o.
Proof.
  intros A N [L|(n' & p & A' & HP & HN)].
  - destruct (inv_mvers ks I n o (assoc_In Z.eqb_eq A)) as [HI _]. pose proof (inv_range ks I o HI). lia.
  - destruct (inv_mvers ks I n o (assoc_In Z.eqb_eq A)) as [_ E1]. destruct (inv_mvers ks I n' o (assoc_In Z.eqb_eq A')) as [_ E2]. rewrite E1 in E2. subst n'. exact (N p HP HN).
Qed.

(** A status is written. *)
Lemma later_status ks' q s : J ks' -> free q \/ (s = ACTIVE /\ forall n, assoc Z.eqb (ks_mvers ks) n = Some q -> (forall p, In (Change p) js -> ~ names p n) -> ks_primary ks = Some q) -> J (set_status ks' q s).
Proof.
  intros [A1 A2 A3 A4 A5 A6 A7 A8 A9 A10] HQ. constructor; cbn [set_status set_objs ks_name ks_purpose ks_type ks_encrypted ks_objs ks_mvers ks_vkeys ks_hkeys ks_primary]; try assumption.
  - rewrite length_upd. exact A2.
  - intros o HO. rewrite deref_num. apply A3, HO.
  - intros n o H N. destruct (A9 n o H N) as [B1 B2]. split; [|exact B2]. destruct (Nat.eq_dec q o) as [->|NQ]; [|rewrite deref_upd_neq by exact NQ; exact B1].
    destruct HQ as [HF|[-> HQ]]; [destruct (free_other n o H N HF)|]. destruct (inv_mvers ks I n o (assoc_In Z.eqb_eq H)) as [HI _]. pose proof (inv_range ks I o HI).
    rewrite deref_upd_eq by lia. right. split; [reflexivity | apply (HQ n H N)].
Qed.

(** [primary_version] is written. *)
Lemma later_primary ks' p : J ks' -> moves -> (forall o, p = Some o -> free o) -> J (set_primary ks' p).
Proof.
  intros [A1 A2 A3 A4 A5 A6 A7 A8 A9 A10] (m & M1 & M2) HP. constructor; cbn [set_primary ks_name ks_purpose ks_type ks_encrypted ks_objs ks_mvers ks_vkeys ks_hkeys ks_primary]; try assumption.
  - intros n o H N. destruct (A9 n o H N) as [B1 B2]. split; [exact B1|]. intros E. destruct (free_other n o H N (HP o E)).
  - intros H. destruct (M2 (H m M1)).
Qed.

Lemma keeps_demote {A} (P : res A -> Prop) k : (forall e, P (Raise e)) -> keeps J P k -> keeps J P (demote_primary_t k).
Proof.
  intros HP HK. apply keeps_read. intros k1 J1. destruct (ks_primary k1); [|exact HK]. apply keeps_read. intros k2 J2. destruct (ks_primary k2) as [q|] eqn:E; [|constructor; apply HP].
  apply keeps_write; [|exact HK]. intros k3 J3. apply later_status; [exact J3|]. right. split; [reflexivity|]. intros m H N. apply (lt_st _ _ _ J2 m q H N). exact E.
Qed.

Lemma max_later ks' n : J ks' -> assoc Z.eqb (ks_mvers ks) n <> None -> n <= max_version ks'.
Proof.
  intros HJ H. destruct (assoc Z.eqb (ks_mvers ks) n) as [o|] eqn:A; [|contradiction]. destruct (inv_mvers ks I n o (assoc_In Z.eqb_eq A)) as [HI E].
  rewrite <- E, <- (lt_num _ _ _ HJ o) by (apply (inv_range ks I), HI). apply max_version_ge. unfold ks_versions in *. destruct (lt_vk _ _ _ HJ) as (x & ->). rewrite map_app. apply in_or_app. left. exact HI.
Qed.

Lemma keeps_change o : In (Change o) js -> keeps J (fun _ => True) (changing o).
Proof.
  intros HIn. destruct o as [ds s size|n|n|n]; cbn [changing].
  - apply keeps_read. intros k1 J1. cbv zeta beta. set (sz := match size with Some z => z | None => _ end). clearbody sz. destruct (negb (IsValidSize (ks_type k1) sz)); [constructor; exact Logic.I|].
    assert (G : forall o n, (length (ks_objs ks) <= o)%nat -> assoc Z.eqb (ks_mvers ks) n = None -> keeps J (fun _ => True) (gen_t (ks_type k1) sz ds (AddKey_t o n))).
    { intros o n HO HN. assert (AK : forall k h, assoc str_eqb (ks_hkeys ks) h = None -> keeps J (fun _ => True) (AddKey_t o n k h)).
      { intros k h HH. apply keeps_write; [|apply keeps_write; [|apply keeps_read; intros k2 J2; destruct (assoc Z.eqb (ks_mvers k2) n); [constructor; exact Logic.I|]; apply keeps_write; [|constructor; exact Logic.I]]].
        - intros k2 [A1 A2 A3 [x A4] A5 A6 A7 A8 A9 A10]. constructor; cbn [set_keys ks_name ks_purpose ks_type ks_encrypted ks_objs ks_mvers ks_vkeys ks_hkeys ks_primary]; try assumption.
          + exists (x ++ [(o, k)]). rewrite A4, app_assoc. reflexivity.
          + intros N. destruct (N _ _ _ HIn).
        - intros k2 [A1 A2 A3 A4 A5 A6 A7 A8 A9 A10]. constructor; cbn [set_keys ks_name ks_purpose ks_type ks_encrypted ks_objs ks_mvers ks_vkeys ks_hkeys ks_primary]; try assumption.
          intros h' k' H'. rewrite (assoc_set _ str_eqb_eq). destruct (str_eqb h h') eqn:E; [|apply A6, H']. apply str_eqb_eq in E. subst h'. congruence.
        - intros k3 [A1 A2 A3 A4 A5 A6 A7 A8 A9 A10]. constructor; cbn [set_mvers ks_name ks_purpose ks_type ks_encrypted ks_objs ks_mvers ks_vkeys ks_hkeys ks_primary]; try assumption.
          + intros m o' H'. rewrite (assoc_set _ Z.eqb_eq). destruct (n =? m) eqn:E; [apply Z.eqb_eq in E; subst m; congruence | apply A7, H'].
          + intros m o' H'. rewrite (assoc_set _ Z.eqb_eq) in H'. destruct (n =? m) eqn:E; [apply Some_inj in H'; subst o'; right; exact HO | apply A8, H']. }
      clear HIn. induction ds as [|d ds IH]; cbn [gen_t]; [constructor; exact Logic.I|]. destruct (GenKey d _ _) as [k|e]; [|constructor; exact Logic.I]. destruct (key_hash_id k) as [h|e]; [|constructor; exact Logic.I].
      apply keeps_read. intros k2 J2. destruct (assoc str_eqb (ks_hkeys k2) h) eqn:E; [exact IH|]. apply AK. destruct (assoc str_eqb (ks_hkeys ks) h) eqn:E'; [|reflexivity]. rewrite (lt_hk _ _ _ J2 _ _ E') in E. discriminate. }
    constructor; intros k2 J2; cbn [fst snd].
    + destruct J2 as [A1 A2 A3 A4 A5 A6 A7 A8 A9 A10]. constructor; cbn [set_objs ks_name ks_purpose ks_type ks_encrypted ks_objs ks_mvers ks_vkeys ks_hkeys ks_primary]; try assumption.
      * rewrite app_length. lia.
      * intros o HO. rewrite deref_app_l by lia. apply A3, HO.
      * intros n o H N. destruct (inv_mvers ks I n o (assoc_In Z.eqb_eq H)) as [HI _]. pose proof (inv_range ks I o HI). rewrite deref_app_l by lia. apply (A9 n o H N).
    + assert (HN : assoc Z.eqb (ks_mvers ks) (max_version k2 + 1) = None).
      { destruct (assoc Z.eqb (ks_mvers ks) (max_version k2 + 1)) eqn:E; [|reflexivity]. assert (X : assoc Z.eqb (ks_mvers ks) (max_version k2 + 1) <> None) by congruence. pose proof (max_later k2 _ J2 X). lia. }
      pose proof (lt_len _ _ _ J2) as HL. unfold AddVersion_rest. destruct (status_eqb s PRIMARY) eqn:ES; [|apply G; assumption].
      apply keeps_demote; [intros; exact Logic.I|]. apply keeps_write; [|apply G; assumption]. intros k3 J3. apply later_primary; [exact J3 | |].
      * exists (OpAdd ds s size). split; [exact HIn|]. cbn [steady]. intros N. apply N. destruct s; try discriminate. reflexivity.
      * intros o E. apply Some_inj in E. subst o. left. exact HL.
  - apply keeps_read. intros k1 J1. destruct (assoc Z.eqb (ks_mvers k1) n) as [o|] eqn:A; [|constructor; exact Logic.I].
    assert (F : free o) by (destruct (lt_new _ _ _ J1 n o A) as [B|B]; [right; exists n, (OpPromote n); split; [exact B | split; [exact HIn | left; reflexivity]] | left; exact B]).
    apply keeps_read. intros k2 J2. destruct (status_eqb _ PRIMARY); [constructor; exact Logic.I|]. apply keeps_read. intros k3 J3. destruct (status_eqb _ ACTIVE).
    + apply keeps_write; [intros k4 J4; apply later_status; [exact J4 | left; exact F]|]. apply keeps_demote; [intros; exact Logic.I|]. apply keeps_write; [|constructor; exact Logic.I].
      intros k4 J4. apply later_primary; [exact J4 | exists (OpPromote n); split; [exact HIn | intros X; exact X]|]. intros o' E. apply Some_inj in E. subst o'. exact F.
    + apply keeps_read. intros k4 J4. destruct (status_eqb _ INACTIVE); [|constructor; exact Logic.I]. apply keeps_write; [intros k5 J5; apply later_status; [exact J5 | left; exact F] | constructor; exact Logic.I].
  - apply keeps_read. intros k1 J1. destruct (assoc Z.eqb (ks_mvers k1) n) as [o|] eqn:A; [|constructor; exact Logic.I].
    assert (F : free o) by (destruct (lt_new _ _ _ J1 n o A) as [B|B]; [right; exists n, (OpDemote n); split; [exact B | split; [exact HIn | right; left; reflexivity]] | left; exact B]).
    apply keeps_read. intros k2 J2. destruct (status_eqb _ PRIMARY).
    + apply keeps_write; [intros k4 J4; apply later_status; [exact J4 | left; exact F]|]. apply keeps_write; [|constructor; exact Logic.I].
      intros k4 J4. apply later_primary; [exact J4 | exists (OpDemote n); split; [exact HIn | intros X; exact X]|]. discriminate.
    + apply keeps_read. intros k3 J3. destruct (status_eqb _ ACTIVE).
      * apply keeps_write; [intros k5 J5; apply later_status; [exact J5 | left; exact F] | constructor; exact Logic.I].
      * apply keeps_read. intros k4 J4. destruct (status_eqb _ INACTIVE); constructor; exact Logic.I.
  - apply keeps_read. intros k1 J1. destruct (assoc Z.eqb (ks_mvers k1) n) as [o|] eqn:A; [|constructor; exact Logic.I]. apply keeps_read. intros k2 J2. destruct (status_eqb _ INACTIVE); [|constructor; exact Logic.I].
    constructor; intros k3 J3; destruct (assoc Z.eqb (ks_mvers k3) n) as [o'|] eqn:A'; cbn [fst snd]; try (constructor; exact Logic.I); [|exact J3].
    destruct J3 as [A1 A2 A3 A4 A5 A6 A7 A8 A9 A10]. constructor; cbn [set_mvers ks_name ks_purpose ks_type ks_encrypted ks_objs ks_mvers ks_vkeys ks_hkeys ks_primary]; try assumption.
    + intros m q H. rewrite (assoc_pop _ Z.eqb_eq). destruct (n =? m) eqn:E; [|apply A7, H]. apply Z.eqb_eq in E. subst m. right. split; [reflexivity | exact HIn].
    + intros m q H. rewrite (assoc_pop _ Z.eqb_eq) in H. destruct (n =? m) eqn:E; [discriminate | apply A8, H].
Qed.

(** Uses: what is found in [ks] is found at any later moment. *)
Lemma keeps_header {A} (P : res A -> Prop) h k : (forall x, ParseHeader ks h = Ok x -> keeps J P (k x)) -> (forall e, ParseHeader ks h = Raise e -> forall r, P r) -> (forall x, keeps J (fun _ => True) (k x)) ->
  keeps J P (with_header h k).
Proof.
  intros H1 H2 H3. unfold with_header, ParseHeader in *. destruct (index h 0) as [c|e]; cbn [bind] in *; [|constructor; apply (H2 e eq_refl)]. destruct (negb _); [constructor; apply (H2 _ eq_refl)|].
  apply keeps_read. intros k1 J1. unfold GetKey_hash in *. destruct (assoc str_eqb (ks_hkeys ks) _) as [x|] eqn:E.
  - rewrite (lt_hk _ _ _ J1 _ _ E). apply H1. reflexivity.
  - specialize (H2 _ eq_refl). assert (W : forall t : thread A, keeps J (fun _ => True) t -> keeps J P t) by (induction 1; constructor; auto). destruct (assoc str_eqb (ks_hkeys k1) _); [apply W, H3 | constructor; apply H2].
Qed.

Lemma vkeys_later ks' o k : J ks' -> assoc Nat.eqb (ks_vkeys ks) o = Some k -> GetKey_version ks' (Some o) = Ok k.
Proof. intros HJ H. unfold GetKey_version. destruct (lt_vk _ _ _ HJ) as (x & ->). rewrite assoc_app, H. reflexivity. Qed.

Lemma keeps_primary {A} (P : res A -> Prop) k x : (forall o, In (Change o) js -> steady o) -> primary_key ks = Ok x -> keeps J P (k x) -> keeps J P (with_primary k).
Proof.
  intros ST H HK. apply keeps_read. intros k1 J1. rewrite (lt_pr _ _ _ J1 ST). unfold primary_key, GetKey_version in H. destruct (ks_primary ks) as [p|]; [|discriminate].
  destruct (assoc Nat.eqb (ks_vkeys ks) p) as [y|] eqn:E; [|discriminate]. apply Ok_inj in H. subst y. apply keeps_read. intros k2 J2. rewrite (vkeys_later _ _ _ J2 E). exact HK.
Qed.

Lemma keeps_ro {A} (t : thread A) : read_only t -> keeps J (fun _ => True) t.
Proof. induction 1 as [r|f H1 H2 IH]; constructor; [exact Logic.I | |]; intros k1 J1; [rewrite H1; exact J1 | apply IH]. Qed.

Lemma keeps_weaken {A} (P Q : res A -> Prop) (t : thread A) : (forall r, P r -> Q r) -> keeps J P t -> keeps J Q t.
Proof. intros H. induction 1; constructor; auto. Qed.

Lemma keeps_use c x : gives ks c = Ok x -> settled js c x -> keeps J (fun r => r = Ok x) (calling c).
Proof.
  intros G S.
  assert (IS : forall e m n k y (P : res str -> Prop), (forall o, In (Change o) js -> steady o) -> (let* s := InternalSign e ks m n in k s) = Ok y -> P (Ok y) -> keeps J P (InternalSign_t e m n k)).
  { intros e m n k y P ST H HP. unfold InternalSign in H. destruct (primary_key ks) as [z|] eqn:EP; cbn [bind] in H; [|discriminate]. apply (keeps_primary _ _ z ST EP). constructor.
    destruct (PackByteArray n); cbn [bind] in *; [|discriminate]. rewrite H. exact HP. }
  destruct c as [e m d|c d|e m d|m s d|e m n d|s n d|e m d|m s d]; cbn [settled] in S; cbn [gives calling] in *; apply keeps_tmap.
    - destruct (Encrypt e ks m d) as [y|] eqn:E; [|discriminate]. apply Ok_inj in G. subst x. unfold Encrypt in E. destruct (primary_key ks) as [z|] eqn:EP; cbn [bind] in E; [|discriminate].
      apply (keeps_primary _ _ z S EP). constructor. rewrite E. reflexivity.
    - destruct (Decrypt ks c d) as [y|] eqn:E; [|discriminate]. apply Ok_inj in G. subst x. unfold Decrypt_t, Decrypt in *. destruct (apply_codec d c) as [w|]; cbn [bind] in E; [|discriminate]. destruct (_ <? _); [discriminate|].
      destruct (ParseHeader ks _) as [z|] eqn:EP; cbn [bind] in E; [|discriminate]. apply keeps_header; [|congruence|constructor; exact Logic.I]. intros z' Hz. rewrite EP in Hz. apply Ok_inj in Hz. subst z'. constructor. rewrite E. reflexivity.
    - destruct (Sign e ks m d) as [y|] eqn:E; [|discriminate]. apply Ok_inj in G. subst x. unfold Sign in E. destruct (primary_key ks) as [z|] eqn:EP; cbn [bind] in E; [|discriminate].
      apply (keeps_primary _ _ z S EP). destruct (key_header z); cbn [bind] in E; [|discriminate]. apply (IS _ _ _ _ _ _ S E). reflexivity.
    - destruct (Verify ks m s d) as [y|] eqn:E; [|discriminate]. apply Ok_inj in G. subst x. unfold Verify_t, Verify, InternalVerify in *. destruct (apply_codec d s) as [w|]; cbn [bind] in E; [|discriminate]. destruct (_ <? _); [discriminate|].
      destruct (ParseHeader ks _) as [z|] eqn:EP; cbn [bind] in E; [|discriminate]. apply keeps_header; [|congruence|constructor; exact Logic.I]. intros z' Hz. rewrite EP in Hz. apply Ok_inj in Hz. subst z'. constructor. rewrite E. reflexivity.
    - destruct (AttachedSign e ks m n d) as [y|] eqn:E; [|discriminate]. apply Ok_inj in G. subst x. unfold AttachedSign in E. destruct (primary_key ks) as [z|] eqn:EP; cbn [bind] in E; [|discriminate].
      apply (keeps_primary _ _ z S EP). destruct (key_header z); cbn [bind] in *; [|discriminate]. destruct (PackByteArray (Some m)); cbn [bind] in *; [|discriminate]. apply (IS _ _ _ _ _ _ S E). reflexivity.
    - destruct (AttachedVerify ks s n d) as [y|] eqn:E; [|discriminate]. apply Ok_inj in G. subst x. unfold AttachedVerify_t, AttachedVerify, InternalVerify in *. destruct (apply_codec d s) as [w|]; cbn [bind] in *; [|discriminate].
      destruct (UnpackByteArray w HEADER_SIZE) as [[u v]|]; cbn [bind] in *; [|discriminate].
      destruct (ParseHeader ks _) as [z|] eqn:EP; cbn [bind] in E; [|discriminate]. apply keeps_header; [|congruence|constructor; exact Logic.I]. intros z' Hz. rewrite EP in Hz. apply Ok_inj in Hz. subst z'. constructor.
      destruct (PackByteArray n); cbn [bind] in *; [|discriminate]. rewrite E. reflexivity.
    - destruct (UnversionedSign e ks m d) as [y|] eqn:E; [|discriminate]. apply Ok_inj in G. subst x. unfold UnversionedSign in E. destruct (primary_key ks) as [z|] eqn:EP; cbn [bind] in E; [|discriminate].
      apply (keeps_primary _ _ z S EP). constructor. rewrite E. reflexivity.
    - destruct (UnversionedVerify ks m s d) as [y|] eqn:E; [|discriminate]. apply Ok_inj in G. subst x. unfold UnversionedVerify_t, UnversionedVerify in *. destruct (apply_codec d s) as [w|]; cbn [bind] in E; [|discriminate].
      apply keeps_read. intros k1 J1. assert (X : exists x, ks_vkeys k1 = ks_vkeys ks ++ x /\ (y = true \/ x = [])).
      { destruct S as [S|S]; [|exists []; rewrite app_nil_r; split; [apply (lt_noadd _ _ _ J1 S) | right; reflexivity]]. injection S as ->. destruct (lt_vk _ _ _ J1) as (x & ->). exists x. split; [reflexivity | left; reflexivity]. }
      destruct X as (x & EX & HX). unfold ks_versions. rewrite EX, map_app. clear k1 J1 EX S.
      assert (G : forall l, incl l (ks_vkeys ks) -> verify_any l m w = Ok y -> keeps J (fun r => res_map ATruth r = Ok (ATruth y)) (verify_any_t (map fst l ++ map fst x) m w)).
      { induction l as [|[o k] l IH]; intros HI HV; cbn [map fst app verify_any_t verify_any] in *.
        - apply Ok_inj in HV. subst y. destruct HX as [HX|HX]; [discriminate|]. subst x. constructor. reflexivity.
        - apply keeps_read. intros k1 J1. assert (A : assoc Nat.eqb (ks_vkeys ks) o = Some k) by (apply (assoc_NoDup Nat.eqb_eq); [apply (inv_vnodup ks I) | apply HI; left; reflexivity]).
          rewrite (vkeys_later _ _ _ J1 A). cbn [bind]. destruct (key_Verify k m w) as [[|]|e]; cbn [bind] in HV; [apply Ok_inj in HV; subst y; constructor; reflexivity | | discriminate].
          apply IH; [|exact HV]. intros p HP. apply HI. right. exact HP. }
      apply G; [apply incl_refl | exact E].
Qed.
End LATER.

Lemma Forall2_mid {A B} (P : A -> B -> Prop) a c b l : Forall2 P (a ++ c :: b) l -> forall t, nth_error l (length a) = Some t -> P c t.
Proof.
  intros F t H. apply Forall2_app_inv_l in F as (l1 & l2 & F1 & F2 & ->). assert (E : length a = length l1) by (clear -F1; induction F1; cbn [length]; congruence). inversion F2 as [|? ? ? ? HP F3]; subst. rewrite nth_error_app2 in H by lia. rewrite E, Nat.sub_diag in H.
  apply Some_inj in H. subst t. exact HP.
Qed.

(** Whatever other threads change meanwhile, a use that would have succeeded when the threads were
    started and that they cannot affect ends, if it ends, with the same result. *)
Theorem C90_uses : forall ks js ks' ts i c x r, reached ks -> turns (ks, map running js) (ks', ts) ->
  nth_error js i = Some (Use c) -> gives ks c = Ok x -> settled js c x -> nth_error ts i = Some (Finished r) -> r = Ok (inr x).
Proof.
  intros ks js ks' ts i c x r R T HI G S HT. pose proof (reached_inv ks R) as I. apply nth_error_split in HI as (a & b & EJ & EL).
  set (Q := map (fun _ (_ : res (unit + answer)) => True) a ++ (fun r => r = Ok (inr x)) :: map (fun _ _ => True) b).
  assert (ANY : forall j, In j js -> keeps (later ks js) (fun _ => True) (running j)).
  { intros [o|c'] HIn; cbn [running]; apply keeps_tmap; [apply keeps_change; assumption | apply keeps_ro, ro_calling]. }
  destruct (keeps_turns (later ks js) (fun (P : res (unit + answer) -> Prop) => P) Q _ _ T (later_self ks js)) as [_ F].
  - cbn [snd]. unfold Q. replace (map running js) with (map running (a ++ Use c :: b)) by (rewrite <- EJ; reflexivity). rewrite map_app. cbn [map].
    assert (AL : forall l, incl l js -> Forall2 (fun P t => keeps (later ks js) P t) (map (fun _ _ => True) l) (map running l)).
    { induction l as [|j l IH]; intros HL; cbn [map]; [constructor|]. constructor; [apply ANY, HL; left; reflexivity | apply IH; intros y Hy; apply HL; right; exact Hy]. }
    apply Forall2_app; [apply AL; intros y Hy; rewrite EJ; apply in_or_app; left; exact Hy|]. constructor; [|apply AL; intros y Hy; rewrite EJ; apply in_or_app; right; right; exact Hy].
    cbn [running]. apply keeps_tmap. apply (keeps_weaken ks js (fun r => r = Ok x)); [intros r' ->; reflexivity | apply keeps_use; assumption].
  - cbn [snd] in F. unfold Q in F. assert (L : length (map (fun _ (_ : res (unit + answer)) => True) a) = i) by (rewrite map_length; exact EL).
    pose proof (Forall2_mid _ _ _ _ _ F (Finished r)) as K. rewrite L in K. specialize (K HT). inversion K; subst. reflexivity.
Qed.
Print Assumptions C90_uses.

Lemma later_means ks js ks' : inv ks -> later ks js ks' ->
  (ks_name ks' = ks_name ks /\ ks_purpose ks' = ks_purpose ks /\ ks_type ks' = ks_type ks /\ ks_encrypted ks' = ks_encrypted ks) /\
  (forall c d x, Decrypt ks c d = Ok x -> Decrypt ks' c d = Ok x) /\
  (forall m s d x, Verify ks m s d = Ok x -> Verify ks' m s d = Ok x) /\
  (forall s n d x, AttachedVerify ks s n d = Ok x -> AttachedVerify ks' s n d = Ok x) /\
  (forall m s d, UnversionedVerify ks m s d = Ok true -> UnversionedVerify ks' m s d = Ok true) /\
  (forall n s k, ring_of ks n = Some (s, k) ->
     (ring_of ks' n = None /\ In (Change (OpRevoke n)) js) \/
     exists s', ring_of ks' n = Some (s', k) /\ ((forall p, In (Change p) js -> ~ names p n) -> s' = s \/ (s = PRIMARY /\ s' = ACTIVE))).
Proof.
  intros I J.
  assert (PH : forall h x, ParseHeader ks h = Ok x -> ParseHeader ks' h = Ok x).
  { intros h x H. unfold ParseHeader in *. destruct (index h 0); cbn [bind] in *; [|discriminate]. destruct (negb _); [discriminate|]. unfold GetKey_hash in *. destruct (assoc str_eqb (ks_hkeys ks) _) eqn:E; [|discriminate].
    rewrite (lt_hk _ _ _ J _ _ E). exact H. }
  split; [exact (lt_attr _ _ _ J)|]. split; [|split; [|split; [|split]]].
  - intros c d x H. unfold Decrypt in *. destruct (apply_codec d c); cbn [bind] in *; [|discriminate]. destruct (_ <? _); [discriminate|]. destruct (ParseHeader ks _) eqn:E; cbn [bind] in *; [|discriminate]. rewrite (PH _ _ E). exact H.
  - intros m s d x H. unfold Verify, InternalVerify in *. destruct (apply_codec d s); cbn [bind] in *; [|discriminate]. destruct (_ <? _); [discriminate|]. destruct (ParseHeader ks _) eqn:E; cbn [bind] in *; [|discriminate]. rewrite (PH _ _ E). exact H.
  - intros s n d x H. unfold AttachedVerify, InternalVerify in *. destruct (apply_codec d s); cbn [bind] in *; [|discriminate]. destruct (UnpackByteArray _ HEADER_SIZE) as [[? ?]|]; cbn [bind] in *; [|discriminate].
    destruct (ParseHeader ks _) eqn:E; cbn [bind] in *; [|discriminate]. rewrite (PH _ _ E). exact H.
  - intros m s d H. unfold UnversionedVerify in *. destruct (apply_codec d s) as [w|]; cbn [bind] in *; [|discriminate]. destruct (lt_vk _ _ _ J) as (x & ->).
    induction (ks_vkeys ks) as [|[o k] l IH]; cbn [verify_any app] in *; [discriminate|]. destruct (key_Verify k m w) as [[|]|]; cbn [bind] in *; [reflexivity | apply IH, H | discriminate].
  - intros n s k H. destruct (ring_entry ks n s k I H) as (o & A & B & C & D). destruct (lt_mv _ _ _ J n o A) as [M|[M HIn]].
    + right. exists (v_status (deref (ks_objs ks') o)). split.
      * unfold ring_of. rewrite M. destruct (lt_vk _ _ _ J) as (x & ->). rewrite assoc_app, B. reflexivity.
      * intros N. destruct (lt_st _ _ _ J n o A N) as [[E|[E1 E2]] _]; [left; congruence|]. right. destruct (inv_prim2 ks I o E2) as (_ & E3 & _). split; congruence.
    + left. split; [unfold ring_of; rewrite M; reflexivity | exact HIn].
Qed.

(** At every moment, whatever the threads do: the attributes are the same; what could be read when they
    were started can be read; no version number has another key; a version disappears only if a thread
    revokes it; and one that no thread names keeps its status, unless it was primary and is now active. *)
Theorem C90_history : forall ks js ks' ts, reached ks -> turns (ks, map running js) (ks', ts) ->
  (ks_name ks' = ks_name ks /\ ks_purpose ks' = ks_purpose ks /\ ks_type ks' = ks_type ks /\ ks_encrypted ks' = ks_encrypted ks) /\
  (forall c d x, Decrypt ks c d = Ok x -> Decrypt ks' c d = Ok x) /\
  (forall m s d x, Verify ks m s d = Ok x -> Verify ks' m s d = Ok x) /\
  (forall s n d x, AttachedVerify ks s n d = Ok x -> AttachedVerify ks' s n d = Ok x) /\
  (forall m s d, UnversionedVerify ks m s d = Ok true -> UnversionedVerify ks' m s d = Ok true) /\
  (forall n s k, ring_of ks n = Some (s, k) ->
     (ring_of ks' n = None /\ In (Change (OpRevoke n)) js) \/
     exists s', ring_of ks' n = Some (s', k) /\ ((forall p, In (Change p) js -> ~ names p n) -> s' = s \/ (s = PRIMARY /\ s' = ACTIVE))).
Proof.
  intros ks js ks' ts R T. pose proof (reached_inv ks R) as I.
  assert (J : later ks js ks').
  { destruct (keeps_turns (later ks js) (fun (_ : job) _ => True) js _ _ T (later_self ks js)) as [J _]; [|exact J]. cbn [snd].
    assert (AL : forall l, incl l js -> Forall2 (fun _ t => keeps (later ks js) (fun _ => True) t) l (map running l)).
    { induction l as [|j l IH]; intros HL; cbn [map]; [constructor|]. constructor; [|apply IH; intros y Hy; apply HL; right; exact Hy]. assert (HIn : In j js) by (apply HL; left; reflexivity).
      destruct j as [o|c']; cbn [running]; apply keeps_tmap; [apply keeps_change; assumption | apply keeps_ro, ro_calling]. }
    apply AL, incl_refl. }
  apply later_means; assumption.
Qed.
Print Assumptions C90_history.
