(** * Props_Keyset: properties C26-C29 and C32-C34 (key sets in memory).

    A key set is reached by opening it with any reader and running any operations of the
    management API on it, whether they succeed or raise ([run]).  [ring_of ks] is what the
    metadata and the keys say about each version number: its status and key, if any; the
    specification of the operations on such rings is KeyRing.v. *)
From Coq Require Import Strings.String.
From Coq Require Import List ZArith NArith Bool Lia ZifyBool ZifyNat ZifyN.
From Coq.Init Require Import Byte.
From Verif Require Import PyBase PyFacts Base64 Base64Facts Sha1 Util UtilFacts Json KeyInfo SymKeys SymFacts AsymKeys Keys KeysFacts
  KeyData Keyczar KeyRing KeyczarFacts ErrFacts.
Import ListNotations.
Local Open Scope Z_scope.
Ltac Zify.zify_post_hook ::= idtac.

(** ** A key set used in the examples: /repo/python/testdata/hmac *)
Definition hmac_meta : str := bs "{""encrypted"": false, ""versions"": [{""status"": ""ACTIVE"", ""versionNumber"": 1, ""exportable"": false}, {""status"": ""PRIMARY"", ""versionNumber"": 2, ""exportable"": false}], ""type"": ""HMAC_SHA1"", ""name"": ""Test"", ""purpose"": ""SIGN_AND_VERIFY""}".
Definition hmac_1 : str := bs "{""hmacKeyString"": ""tE41W2GFgxk33RnZHdaE7z-PvALxxVVKdtStfqYMICE"", ""size"": 256}".
Definition hmac_2 : str := bs "{""hmacKeyString"": ""EuyKHHbO1W1QoUV4BvHf0SADM9ZMhz08M7IHMLysbI0"", ""size"": 256}".
Definition hmac_reader : reader :=
  MkReader (Ok hmac_meta) (fun n => if n =? 1 then Ok hmac_1 else if n =? 2 then Ok hmac_2 else Raise IOError) false.
Definition hmac_set : keyset := Eval vm_compute in
  match open_keyset GenericKeyczar hmac_reader with Ok ks => ks | Raise _ => MkKs [] VERIFY AES false [] [] [] [] None end.
Lemma hmac_set_opens : open_keyset GenericKeyczar hmac_reader = Ok hmac_set.
Proof. vm_compute. reflexivity. Qed.

(** ** C26 *)
(** However it was loaded and whatever was done to it, at most one version of the metadata
    is PRIMARY ... *)
Theorem C26_at_most_one_primary : forall c rd ks ops, open_keyset c rd = Ok ks ->
  (length (filter (fun p => status_eqb (v_status (snd p)) PRIMARY) (m_versions (ks_meta (run ks ops)))) <= 1)%nat.
Proof.
  intros c rd ks ops H. pose proof (inv_run ks ops (inv_open c rd ks H)) as I. set (k := run ks ops) in *. clearbody k.
  unfold ks_meta. cbn [m_versions].
  assert (G : forall l, incl l (ks_mvers k) -> NoDup (map fst l) ->
    (length (filter (fun p => status_eqb (v_status (snd p)) PRIMARY) (map (fun p => (fst p, deref (ks_objs k) (snd p))) l)) <= 1)%nat /\
    forall p, In p l -> ks_primary k <> Some (snd p) ->
      status_eqb (v_status (deref (ks_objs k) (snd p))) PRIMARY = false).
  { intros l. induction l as [|[n o] l IH]; intros HI ND; [split; [cbn; lia | intros p []]|].
    cbn [map fst] in ND. inversion ND as [|? ? N1 N2]; subst.
    destruct IH as [IH1 IH2]; [intros x Hx; apply HI; right; exact Hx | exact N2|].
    destruct (inv_mvers k I n o (HI _ (or_introl eq_refl))) as [HV HN].
    assert (P : ks_primary k <> Some o -> status_eqb (v_status (deref (ks_objs k) o)) PRIMARY = false).
    { intros HP. apply not_true_is_false. intros C. apply status_eqb_eq in C. apply HP. apply (inv_prim1 k I o HV C). }
    split.
    - cbn [map filter fst snd]. destruct (status_eqb (v_status (deref (ks_objs k) o)) PRIMARY) eqn:E; [|exact IH1].
      cbn [length]. assert (Z0 : filter (fun p => status_eqb (v_status (snd p)) PRIMARY) (map (fun p => (fst p, deref (ks_objs k) (snd p))) l) = []).
      { assert (HP : ks_primary k = Some o). { apply status_eqb_eq in E. apply (inv_prim1 k I o HV E). }
        assert (L : forall p, In p l -> status_eqb (v_status (deref (ks_objs k) (snd p))) PRIMARY = false).
        { intros [m o'] Hp. apply IH2; [exact Hp|]. cbn [snd]. rewrite HP. intros C. apply Some_inj in C as <-.
          destruct (inv_mvers k I m o (HI _ (or_intror Hp))) as [_ HM]. apply N1. rewrite <- HN, HM. apply (in_map fst) in Hp. exact Hp. }
        clear - L. induction l as [|p l IH]; [reflexivity|]. cbn [map filter snd]. rewrite (L p (or_introl eq_refl)).
        apply IH. intros q Hq. apply L. right. exact Hq. }
      rewrite Z0. cbn. lia.
    - intros p [<-|Hp] HP; [apply P; exact HP | apply IH2; assumption]. }
  apply G; [intros x Hx; exact Hx | apply (inv_mkeys k I)].
Qed.
Print Assumptions C26_at_most_one_primary.

(** ... and the primary key is that version's key; without such a version there is none. *)
Theorem C26_primary_key_of_primary_version : forall c rd ks ops, open_keyset c rd = Ok ks ->
  (forall k, primary_key (run ks ops) = Ok k <-> exists n, ring_of (run ks ops) n = Some (PRIMARY, k)) /\
  (forall e, primary_key (run ks ops) = Raise e -> exists h, e = KeyNotFoundError h) /\
  (forall n m k k', ring_of (run ks ops) n = Some (PRIMARY, k) -> ring_of (run ks ops) m = Some (PRIMARY, k') -> n = m /\ k = k').
Proof.
  intros c rd ks ops H. pose proof (inv_run ks ops (inv_open c rd ks H)) as I.
  split; [intros k; apply primary_key_spec; exact I|]. split; [apply primary_key_fails|]. apply ring_one_primary. exact I.
Qed.
Print Assumptions C26_primary_key_of_primary_version.

(** The ring and the metadata know the same versions, with the same statuses. *)
Theorem C26_ring_is_metadata : forall c rd ks ops, open_keyset c rd = Ok ks -> forall n s,
  (exists k, ring_of (run ks ops) n = Some (s, k)) <->
  (exists v, In (n, v) (m_versions (ks_meta (run ks ops))) /\ v_num v = n /\ v_status v = s).
Proof.
  intros c rd ks ops H. pose proof (inv_run ks ops (inv_open c rd ks H)) as I. set (k := run ks ops) in *. clearbody k.
  intros n s. unfold ks_meta. cbn [m_versions]. split.
  - intros (x & Hx). destruct (ring_entry k n s x I Hx) as (o & HA & HK & HS & HV).
    pose proof (assoc_In Z.eqb_eq HA) as HI. exists (deref (ks_objs k) o). split; [|split; [apply (inv_mvers k I n o HI) | exact HS]].
    apply (in_map (fun p => (fst p, deref (ks_objs k) (snd p)))) in HI. exact HI.
  - intros (v & HI & HN & HS). apply in_map_iff in HI as ([m o] & E & HI). cbn [fst snd] in E. apply pair_inj in E as [-> <-].
    destruct (ring_known k n o I (assoc_NoDup Z.eqb_eq (inv_mkeys k I) HI)) as (x & _ & ->). exists x. rewrite HS. reflexivity.
Qed.
Print Assumptions C26_ring_is_metadata.

Example C26_case : open_keyset GenericKeyczar hmac_reader = Ok hmac_set /\ exists k, ring_of hmac_set 2 = Some (PRIMARY, k).
Proof. split; [exact hmac_set_opens|]. eexists. reflexivity. Qed.

(** ** C27 *)
(** A successful AddVersion gives the new key a number above every number the key set knows
    -- those in the metadata and those revoked since it was loaded -- by exactly one, and
    leaves the other versions' numbers and keys alone. *)
Theorem C27_new_number_is_max_plus_one : forall c rd ks0 ops ds s size ks', open_keyset c rd = Ok ks0 ->
  let ks := run ks0 ops in
  let known n := exists ops1 ops2 x, ops = ops1 ++ ops2 /\ ring_of (run ks0 ops1) n = Some x in
  AddVersion ks ds s size = (ks', Ok tt) ->
  exists n k, ring_of ks' n = Some (s, k) /\ 1 <= n /\
    (forall m, known m -> m < n) /\
    (n = 1 \/ exists o k', In (o, k') (ks_vkeys ks) /\ v_num (deref (ks_objs ks) o) = n - 1) /\
    (forall m, m <> n -> option_map snd (ring_of ks' m) = option_map snd (ring_of ks m)).
Proof.
  intros c rd ks0 ops ds s size ks' H ks known HA. pose proof (inv_open c rd ks0 H) as I0.
  pose proof (inv_run ks0 ops I0) as I. fold ks in I. rewrite AddVersion_eq in HA. cbv zeta in HA.
  destruct (negb _); [apply pair_inj in HA as [_ HA]; discriminate|].
  destruct (gen_unique _ _ _ ds) as [[k h]|e] eqn:EG; [|apply pair_inj in HA as [_ HA]; discriminate].
  apply pair_inj in HA as [<- _]. exists (max_version ks + 1), k.
  split; [rewrite ring_AddKey by exact I; unfold ring_add; rewrite Z.eqb_refl; reflexivity|].
  split; [pose proof (max_version_nonneg ks); lia|]. split; [|split].
  - intros m (ops1 & ops2 & [s1 k1] & E & HR). subst ops.
    assert (M : forall ops2 ks1, inv ks1 -> forall o, In o (ks_versions ks1) ->
              In o (ks_versions (run ks1 ops2)) /\ v_num (deref (ks_objs (run ks1 ops2)) o) = v_num (deref (ks_objs ks1) o)).
    { clear. induction ops2 as [|op ops2 IH]; intros ks1 I1 o Ho; [split; [exact Ho | reflexivity]|].
      cbn [run fold_left]. destruct (versions_step ks1 op o I1 Ho) as [A B].
      destruct (IH (fst (step ks1 op)) (inv_step ks1 op I1) o A) as [C D]. split; [exact C|]. exact (eq_trans D B). }
    destruct (ring_entry (run ks0 ops1) m s1 k1 (inv_run ks0 ops1 I0) HR) as (o & HA & _ & _ & HV).
    destruct (M ops2 (run ks0 ops1) (inv_run ks0 ops1 I0) o HV) as [A B].
    rewrite <- run_app in A, B. fold ks in A, B. pose proof (max_version_ge ks o A) as G.
    pose proof (proj2 (inv_mvers _ (inv_run ks0 ops1 I0) m o (assoc_In Z.eqb_eq HA))) as N. lia.
  - destruct (max_version_attained ks) as [Z|(o & Ho & E)]; [left; lia|]. right.
    destruct (version_has_key ks o Ho) as (k' & HK). exists o, k'. split; [apply (assoc_In Nat.eqb_eq HK)|]. lia.
  - intros m Hm. rewrite ring_AddKey by exact I. unfold ring_add. destruct (m =? max_version ks + 1) eqn:E; [lia|].
    destruct s; try reflexivity. destruct (ring_of ks m) as [[[] ?]|]; reflexivity.
Qed.
Print Assumptions C27_new_number_is_max_plus_one.

(** While a key set is in memory, a number names one key for good: if it names a key before
    and after any operations, it is the same key.  (Across a reload this fails, see
    C27_number_reused_after_reload_refuted.) *)
Theorem C27_numbers_never_rebound : forall c rd ks0 ops ops' n s k s' k', open_keyset c rd = Ok ks0 ->
  ring_of (run ks0 ops) n = Some (s, k) -> ring_of (run ks0 (ops ++ ops')) n = Some (s', k') -> k = k'.
Proof.
  intros c rd ks0 ops ops' n s k s' k' H H1 H2. pose proof (inv_run ks0 ops (inv_open c rd ks0 H)) as I.
  rewrite run_app in H2. set (ks := run ks0 ops) in *. clearbody ks. revert ks I H1 H2.
  assert (G : forall ops' ks, inv ks -> forall o n k, In (o, k) (ks_vkeys ks) -> v_num (deref (ks_objs ks) o) = n ->
              In (o, k) (ks_vkeys (run ks ops')) /\ v_num (deref (ks_objs (run ks ops')) o) = n).
  { clear. induction ops' as [|op ops' IH]; intros ks I o n k HI HN; [split; assumption|]. cbn [run fold_left].
    assert (HV : In o (ks_versions ks)) by (apply (in_map fst) in HI; exact HI).
    destruct (versions_step ks op o I HV) as [_ B]. apply IH; [apply inv_step; exact I | | congruence].
    destruct (vkeys_step ks op I) as [->|(k' & h & n' & -> & _)]; [exact HI | apply in_or_app; left; exact HI]. }
  intros ks I H1 H2. destruct (ring_entry ks n s k I H1) as (o & HA & HK & _ & HV).
  pose proof (inv_run ks ops' I) as I'. destruct (ring_entry _ n s' k' I' H2) as (o' & HA' & HK' & _ & HV').
  destruct (inv_mvers ks I n o (assoc_In Z.eqb_eq HA)) as [_ HN].
  destruct (G ops' ks I o n k (assoc_In Nat.eqb_eq HK) HN) as [A B].
  destruct (inv_mvers _ I' n o' (assoc_In Z.eqb_eq HA')) as [_ HN'].
  assert (o = o').
  { apply (num_inj _ I'); [apply (in_map fst) in A; exact A | exact HV' | congruence]. }
  subst o'. assert (ND : NoDup (map fst (ks_vkeys (run ks ops')))) by (apply (inv_vnodup _ I')).
  rewrite (assoc_NoDup Nat.eqb_eq ND A) in HK'. apply Some_inj in HK'. exact HK'.
Qed.
Print Assumptions C27_numbers_never_rebound.

Definition zero_draw (b : byte) : draw :=
  MkDraw (fun _ => b) (MkRsaNums (MkRsaPubNums 0 0) 0 0 0 0) (MkDsaNums (MkDsaPubNums 0 0 0 0) 0).

Example C27_case : exists ks', AddVersion hmac_set [zero_draw x2a] ACTIVE None = (ks', Ok tt) /\
  exists k, ring_of ks' 3 = Some (ACTIVE, k).
Proof.
  assert (E : snd (AddVersion hmac_set [zero_draw x2a] ACTIVE None) = Ok tt) by (vm_compute; reflexivity).
  exists (fst (AddVersion hmac_set [zero_draw x2a] ACTIVE None)). split; [rewrite <- E; apply surjective_pairing|].
  eexists. vm_compute. reflexivity.
Qed.

(** ** C28 *)
(** [refines r ks' out ks x]: on a ring [r] the operation is allowed iff [x] is a ring, and then
    it succeeds and gives that ring; otherwise it raises KeyczarError and nothing changed. *)
Definition does (ks : keyset) (result : keyset * res unit) (expected : option ring) : Prop :=
  match expected with
  | Some r => snd result = Ok tt /\ forall m, ring_of (fst result) m = r m
  | None => result = (ks, Raise KeyczarError)
  end.

(** The other attributes of a key set no operation changes. *)
Definition same_set (a b : keyset) : Prop :=
  ks_name a = ks_name b /\ ks_purpose a = ks_purpose b /\ ks_type a = ks_type b /\ ks_encrypted a = ks_encrypted b.

Theorem C28_promote_demote_revoke : forall c rd ks0 ops n, open_keyset c rd = Ok ks0 ->
  let ks := run ks0 ops in
  does ks (Promote ks n) (ring_promote (ring_of ks) n) /\
  does ks (Demote ks n) (ring_demote (ring_of ks) n) /\
  does ks (Revoke ks n) (ring_revoke (ring_of ks) n).
Proof.
  intros c rd ks0 ops n H ks. pose proof (inv_run ks0 ops (inv_open c rd ks0 H)) as I. fold ks in I. clearbody ks. clear H.
  unfold Promote, Demote, Revoke, GetVersion, ring_promote, ring_demote, ring_revoke.
  destruct (assoc Z.eqb (ks_mvers ks) n) as [o|] eqn:EA.
  2:{ assert (E : ring_of ks n = None) by (unfold ring_of; rewrite EA; reflexivity). rewrite E. repeat split. }
  destruct (ring_known ks n o I EA) as (k & HK & ER). rewrite ER.
  assert (RN : forall s m, ring_of (set_status ks o s) m = if m =? n then Some (s, k) else ring_of ks m).
  { intros s m. apply ring_status; assumption. }
  destruct (v_status (deref (ks_objs ks) o)) eqn:ES; (split; [|split]); cbn [does fst snd];
    try reflexivity; try (split; [reflexivity|]); intros m; try apply RN; try apply ring_revoke_eq.
  (* ACTIVE -> PRIMARY *)
  assert (HP : ks_primary ks <> Some o).
  { intros C. pose proof (inv_prim2 ks I o C) as (_ & C2 & _). congruence. }
  rewrite promote_active_eq by exact HP. rewrite ring_set_primary, ring_status with (n := n) (k := k).
  - destruct (m =? n); [reflexivity|]. apply ring_drop. exact I.
  - apply inv_drop. exact I.
  - destruct (drop_same ks) as (-> & _). exact EA.
  - destruct (drop_same ks) as (_ & -> & _). exact HK.
Qed.
Print Assumptions C28_promote_demote_revoke.

Definition is_public (t : ktype) : bool := match t with DSA_PUB | RSA_PUB => true | _ => false end.

Lemma GenKey_private d t size : is_public t = false -> IsValidSize t size = true ->
  exists k h, GenKey d t (Some size) = Ok k /\ key_hash_id k = Ok h.
Proof.
  intros HP HS. unfold GenKey. rewrite HS. cbn [negb]. destruct t; try discriminate.
  - unfold AesKey_Generate. cbv zeta. cbn [AesKey_new bind]. eexists. eexists. split; [reflexivity|].
    cbn [key_hash_id]. unfold aes_hash_id, aes_bytes, hmac_bytes. cbn [ak_string ak_hmac HmacKey_Generate HmacKey_new hk_string].
    rewrite !base64_roundtrip_u. reflexivity.
  - eexists. eexists. split; [reflexivity|]. cbn [key_hash_id]. unfold hmac_hash_id, hmac_bytes.
    cbn [HmacKey_Generate HmacKey_new hk_string]. rewrite base64_roundtrip_u. reflexivity.
  - eexists. eexists. split; reflexivity.
  - eexists. eexists. split; reflexivity.
Qed.

(** AddVersion refuses a size the type does not have and then changes nothing.  Otherwise, on
    any set whose keys can be generated, it succeeds as soon as one of the keys drawn has an
    identifier the set does not know (until then it keeps drawing, [Diverge]), and adds that
    key under a new number. *)
Theorem C28_add : forall c rd ks0 ops ds s size, open_keyset c rd = Ok ks0 ->
  let ks := run ks0 ops in
  let z := match size with Some z => z | None => default_size (ks_type ks) end in
  (~ In z (sizes (ks_type ks)) -> AddVersion ks ds s size = (ks, Raise KeyczarError)) /\
  (In z (sizes (ks_type ks)) -> is_public (ks_type ks) = false ->
   (exists d k h n, In d ds /\ GenKey d (ks_type ks) (Some z) = Ok k /\ key_hash_id k = Ok h /\
      GetKey_hash ks h = Raise (KeyNotFoundError h) /\
      (forall x, ring_of ks n <> Some x) /\ does ks (AddVersion ks ds s size) (Some (ring_add (ring_of ks) n s k))) \/
   (snd (AddVersion ks ds s size) = Raise Diverge /\
    forall d, In d ds -> exists k h k', GenKey d (ks_type ks) (Some z) = Ok k /\ key_hash_id k = Ok h /\ GetKey_hash ks h = Ok k')).
Proof.
  intros c rd ks0 ops ds s size H ks z. pose proof (inv_run ks0 ops (inv_open c rd ks0 H)) as I. fold ks in I.
  assert (V : In z (sizes (ks_type ks)) <-> IsValidSize (ks_type ks) z = true).
  { unfold IsValidSize. rewrite existsb_exists. split.
    - intros Hz. exists z. split; [exact Hz | apply Z.eqb_refl].
    - intros (x & Hx & E). apply Z.eqb_eq in E as ->. exact Hx. }
  rewrite AddVersion_eq. cbv zeta. change (match size with Some z => z | None => default_size (ks_type ks) end) with z. split.
  - intros Hz. destruct (IsValidSize (ks_type ks) z) eqn:E; [exfalso; apply Hz, V; reflexivity | reflexivity].
  - intros Hz HP. apply V in Hz. rewrite Hz. cbn [negb].
    assert (G : (exists d k h, In d ds /\ GenKey d (ks_type ks) (Some z) = Ok k /\ key_hash_id k = Ok h /\
               assoc str_eqb (ks_hkeys ks) h = None /\ gen_unique (ks_hkeys ks) (ks_type ks) z ds = Ok (k, h)) \/
               (gen_unique (ks_hkeys ks) (ks_type ks) z ds = Raise Diverge /\
                forall d, In d ds -> exists k h k', GenKey d (ks_type ks) (Some z) = Ok k /\ key_hash_id k = Ok h /\ assoc str_eqb (ks_hkeys ks) h = Some k')).
    { induction ds as [|d ds IH]; [right; split; [reflexivity | intros d []]|].
      destruct (GenKey_private d (ks_type ks) z HP Hz) as (k & h & HG & HH). cbn [gen_unique]. rewrite HG. cbn [bind]. rewrite HH. cbn [bind].
      destruct (assoc str_eqb (ks_hkeys ks) h) as [k'|] eqn:EA.
      - destruct IH as [(d' & k2 & h2 & HI & R)|[R1 R2]].
        + left. exists d', k2, h2. split; [right; exact HI | exact R].
        + right. split; [exact R1|]. intros d' [<-|Hd]; [exists k, h, k'; repeat split; assumption | apply R2; exact Hd].
      - left. exists d, k, h. repeat split; try assumption. left. reflexivity. }
    destruct G as [(d & k & h & HI & HG & HH & HA & EG)|[EG R]]; rewrite EG.
    + left. exists d, k, h, (max_version ks + 1). repeat split; try assumption.
      * unfold GetKey_hash. rewrite HA. reflexivity.
      * intros x C. unfold ring_of in C. rewrite fresh_num in C by exact I. discriminate.
      * cbn [fst]. intros m. apply ring_AddKey. exact I.
    + right. split; [reflexivity|]. intros d Hd. destruct (R d Hd) as (k & h & k' & A & B & C). exists k, h, k'.
      repeat split; try assumption. unfold GetKey_hash. rewrite C. reflexivity.
Qed.
Print Assumptions C28_add.

(** No operation, successful or not, changes the name, purpose, type or encryption mark. *)
Theorem C28_attributes_kept : forall c rd ks0 ops, open_keyset c rd = Ok ks0 -> same_set (run ks0 ops) ks0.
Proof.
  intros c rd ks0 ops H. pose proof (inv_open c rd ks0 H) as I. clear H. revert ks0 I.
  induction ops as [|o ops IH]; intros ks I; [repeat split|]. cbn [run fold_left].
  assert (S : same_set (fst (step ks o)) ks).
  { destruct o as [ds s size|n|n|n]; cbn [step].
    - rewrite AddVersion_eq. cbv zeta. destruct (negb _); [repeat split|].
      destruct (prepare_same ks s I) as (_ & _ & _ & E4 & E5 & E6 & E7 & _).
      destruct (gen_unique _ _ _ ds) as [[k h]|e] eqn:EG; cbn [fst]; [rewrite AddKey_eq by exact I|]; repeat split; assumption.
    - unfold Promote. destruct (GetVersion ks n); [|repeat split]. destruct (v_status _); try (repeat split).
      all: cbv zeta; destruct (ks_primary ks); reflexivity.
    - unfold Demote. destruct (GetVersion ks n); [|repeat split]. destruct (v_status _); repeat split.
    - unfold Revoke. destruct (GetVersion ks n); [|repeat split]. destruct (v_status _); repeat split. }
  specialize (IH (fst (step ks o)) (inv_step ks o I)). unfold same_set, run in *. intuition congruence.
Qed.
Print Assumptions C28_attributes_kept.

(** REFUTED for AddVersion: on a set of public keys (none can be generated) adding a primary
    version raises, yet the previous primary version has been demoted and the set no longer
    has a primary key. *)
Theorem C28_failed_add_changes_state_refuted : forall c rd ks0 ops d ds n k, open_keyset c rd = Ok ks0 ->
  let ks := run ks0 ops in is_public (ks_type ks) = true -> ring_of ks n = Some (PRIMARY, k) ->
  exists ks', AddVersion ks (d :: ds) PRIMARY None = (ks', Raise KeyczarError) /\
    ring_of ks' n = Some (ACTIVE, k) /\ primary_key ks = Ok k /\ exists e, primary_key ks' = Raise e.
Proof.
  intros c rd ks0 ops d ds n k H ks HP HR. pose proof (inv_run ks0 ops (inv_open c rd ks0 H)) as I. fold ks in I.
  rewrite AddVersion_eq. cbv zeta. exists (add_prepare ks PRIMARY).
  assert (V : IsValidSize (ks_type ks) (default_size (ks_type ks)) = true) by (destruct (ks_type ks); reflexivity).
  rewrite V. cbn [negb].
  assert (G : gen_unique (ks_hkeys ks) (ks_type ks) (default_size (ks_type ks)) (d :: ds) = Raise KeyczarError).
  { cbn [gen_unique]. unfold GenKey. rewrite V. cbn [negb]. destruct (ks_type ks); try discriminate HP; reflexivity. }
  rewrite G. split; [reflexivity|]. split; [rewrite (ring_prepare ks PRIMARY n I), HR; reflexivity|].
  split; [apply (primary_key_spec ks k I); exists n; exact HR|].
  destruct (primary_key (add_prepare ks PRIMARY)) as [k'|e] eqn:EP; [|exists e; reflexivity].
  exfalso. apply (primary_key_spec _ k' (inv_add_prepare ks PRIMARY I)) in EP as (m & EP).
  rewrite (ring_prepare ks PRIMARY m I) in EP. destruct (ring_of ks m) as [[[] ?]|]; discriminate.
Qed.
Print Assumptions C28_failed_add_changes_state_refuted.

Definition pub_meta : str := bs "{""name"":""p"", ""purpose"":""VERIFY"", ""type"":""RSA_PUB"", ""encrypted"":false, ""versions"":[{""versionNumber"":7, ""status"":""PRIMARY"", ""exportable"":true}]}".
Definition pub_reader : reader :=
  MkReader (Ok pub_meta) (fun _ => Ok (bs "{""modulus"":""ALs"", ""publicExponent"":""AQAB"", ""size"":2048}")) false.
Definition pub_set : keyset := Eval vm_compute in
  match open_keyset GenericKeyczar pub_reader with Ok ks => ks | Raise _ => hmac_set end.

Example C28_case :
  (exists r, ring_promote (ring_of hmac_set) 1 = Some r) /\ ring_promote (ring_of hmac_set) 2 = None /\
  ring_revoke (ring_of hmac_set) 1 = None /\ (exists r, ring_demote (ring_of hmac_set) 2 = Some r) /\
  open_keyset GenericKeyczar pub_reader = Ok pub_set /\ is_public (ks_type pub_set) = true /\
  (exists k, ring_of pub_set 7 = Some (PRIMARY, k)) /\ In 256 (sizes (ks_type hmac_set)).
Proof.
  split; [eexists; reflexivity|]. split; [reflexivity|]. split; [reflexivity|]. split; [eexists; reflexivity|].
  split; [vm_compute; reflexivity|]. split; [reflexivity|]. split; [eexists; reflexivity|]. left. reflexivity.
Qed.

(** ** C29 *)
(** If the keys loaded have pairwise distinct identifiers (in particular if the set was
    created empty), so have they after any operations, and the identifier of every version's
    key finds that key. *)
Theorem C29_identifiers_stay_distinct : forall c rd ks0 ops, open_keyset c rd = Ok ks0 ->
  ids_distinct ks0 -> ids_distinct (run ks0 ops) /\
  forall n s k, ring_of (run ks0 ops) n = Some (s, k) ->
    exists h, key_hash_id k = Ok h /\ GetKey_hash (run ks0 ops) h = Ok k.
Proof.
  intros c rd ks0 ops H D. pose proof (inv_open c rd ks0 H) as I. pose proof (ids_run ks0 ops I D) as D'.
  split; [exact D'|]. intros n s k HR. pose proof (inv_run ks0 ops I) as I'.
  destruct (ring_entry _ n s k I' HR) as (o & _ & HK & _). apply (assoc_In Nat.eqb_eq) in HK.
  destruct (inv_hash1 _ I' o k HK) as (h & k' & HH & _). exists h. split; [exact HH|]. apply (ids_lookup _ o k h I' D' HK HH).
Qed.
Print Assumptions C29_identifiers_stay_distinct.

Theorem C29_empty_sets_qualify : forall c rd ks0, open_keyset c rd = Ok ks0 ->
  m_versions (ks_meta ks0) = [] -> ids_distinct ks0.
Proof.
  intros c rd ks0 H E. destruct (open_ok c rd ks0 H) as (s & m & l & _ & _ & _ & _ & _ & _ & _ & _ & _ & _ & EM & EV & _).
  assert (HN : ks_mvers ks0 = []) by (unfold ks_meta in E; cbn [m_versions] in E; destruct (ks_mvers ks0); [reflexivity | discriminate]).
  unfold ids_distinct. rewrite EV. unfold meta_versions in *. rewrite HN in EM. destruct (m_versions m); [constructor | discriminate].
Qed.
Print Assumptions C29_empty_sets_qualify.

(** REFUTED on loading: a set with two different keys of the same identifier is opened
    without complaint, and the identifier then finds only the later one: the key of version 1
    cannot be reached (what it signed is checked with the key of version 2). *)
Definition clash_reader : reader :=
  MkReader (Ok hmac_meta)
    (fun n => key_str (KHmac (HmacKey_new (text_of_str (Base64WSEncode
       (if n =? 1 then bs "00000000000000000000000000001071" else bs "00000000000000000000000000040441"))) 256))) false.
Definition clash_set : keyset := Eval vm_compute in
  match open_keyset Verifier clash_reader with Ok ks => ks | Raise _ => hmac_set end.

Theorem C29_clash_on_load_refuted : exists rd ks k1 k2 h, open_keyset Verifier rd = Ok ks /\
  ring_of ks 1 = Some (ACTIVE, k1) /\ ring_of ks 2 = Some (PRIMARY, k2) /\ k1 <> k2 /\
  key_hash_id k1 = Ok h /\ GetKey_hash ks h = Ok k2.
Proof.
  exists clash_reader, clash_set. do 3 eexists. split; [vm_compute; reflexivity|]. split; [reflexivity|]. split; [reflexivity|].
  split; [intros C; apply (f_equal key_string) in C; vm_compute in C; discriminate|]. split; vm_compute; reflexivity.
Qed.
Print Assumptions C29_clash_on_load_refuted.

Example C29_case : ids_distinct hmac_set.
Proof.
  unfold ids_distinct. cbn [hmac_set ks_vkeys map snd].
  match goal with |- NoDup [?a; ?b] => let x := eval vm_compute in a in let y := eval vm_compute in b in
    replace a with x by (vm_compute; reflexivity); replace b with y by (vm_compute; reflexivity) end.
  constructor; [intros [C|[]]; apply Ok_inj in C; discriminate|]. constructor; [intros [] | constructor].
Qed.

(** ** C32 *)
(** Encrypt and Sign use the key of the PRIMARY version, whatever happened to the set, and
    what they return (before encoding) starts with the header naming that key: version byte 0
    and its identifier. *)
Theorem C32_primary_key_is_used : forall c rd ks0 ops n k, open_keyset c rd = Ok ks0 ->
  let ks := run ks0 ops in ring_of ks n = Some (PRIMARY, k) ->
  (forall e data enc, Encrypt e ks data enc = (let* ct := key_Encrypt e k data in apply_codec enc ct)) /\
  (forall e data enc, Sign e ks data enc =
     (let* h := key_header k in let* s := key_Sign e k (data ++ VERSION_BYTE) in apply_codec enc (h ++ s))) /\
  (forall e data enc, UnversionedSign e ks data enc = (let* s := key_Sign e k data in apply_codec enc s)) /\
  exists id, key_hash_id k = Ok (Base64WSEncode id) /\ len id = 4 /\
    (forall e data out, Encrypt e ks data None = Ok out -> exists t, out = x00 :: id ++ t) /\
    (forall e data out, Sign e ks data None = Ok out -> exists t, out = x00 :: id ++ t) /\
    (forall e data nonce out, AttachedSign e ks data nonce None = Ok out -> exists t, out = x00 :: id ++ t).
Proof.
  intros c rd ks0 ops n k H ks HR. pose proof (inv_run ks0 ops (inv_open c rd ks0 H)) as I. fold ks in I.
  assert (HP : primary_key ks = Ok k) by (apply (primary_key_spec ks k I); exists n; exact HR).
  split; [intros e data enc; unfold Encrypt; rewrite HP; reflexivity|].
  split; [intros e data enc; unfold Sign, InternalSign; rewrite HP; cbn [bind PackByteArray app]; reflexivity|].
  split; [intros e data enc; unfold UnversionedSign; rewrite HP; reflexivity|].
  destruct (ring_entry ks n PRIMARY k I HR) as (o & _ & HK & _).
  destruct (inv_hash1 ks I o k (assoc_In Nat.eqb_eq HK)) as (h & _ & HH & _).
  destruct (key_header_ok k h HH) as (id & -> & L & EH). exists id. split; [exact HH|]. split; [exact L|].
  split; [|split].
  - intros e data out HE. unfold Encrypt in HE. rewrite HP in HE. cbn [bind] in HE. apply bind_Ok in HE as (ct & HE & HO).
    apply Ok_inj in HO as <-. destruct (key_Encrypt_header e k data ct HE) as (h & t & HE' & ->). rewrite EH in HE'.
    apply Ok_inj in HE' as <-. exists t. reflexivity.
  - intros e data out HE. unfold Sign in HE. rewrite HP in HE. cbn [bind] in HE. rewrite EH in HE. cbn [bind] in HE.
    apply bind_Ok in HE as (s & _ & HO). apply Ok_inj in HO as <-. exists s. reflexivity.
  - intros e data nonce out HE. unfold AttachedSign in HE. rewrite HP in HE. cbn [bind] in HE. rewrite EH in HE. cbn [bind] in HE.
    apply bind_Ok in HE as (d & _ & HE). apply bind_Ok in HE as (s & _ & HO). apply Ok_inj in HO as <-. exists (d ++ s). reflexivity.
Qed.
Print Assumptions C32_primary_key_is_used.

(** REFUTED: without a primary version the documented NoPrimaryKeyError is never raised;
    KeyNotFoundError is. *)
Theorem C32_no_primary_error_refuted : forall c rd ks0 ops, open_keyset c rd = Ok ks0 ->
  let ks := run ks0 ops in (forall n k, ring_of ks n <> Some (PRIMARY, k)) ->
  exists h, forall e data nonce enc,
    Encrypt e ks data enc = Raise (KeyNotFoundError h) /\ Sign e ks data enc = Raise (KeyNotFoundError h) /\
    AttachedSign e ks data nonce enc = Raise (KeyNotFoundError h) /\ UnversionedSign e ks data enc = Raise (KeyNotFoundError h).
Proof.
  intros c rd ks0 ops H ks HN. pose proof (inv_run ks0 ops (inv_open c rd ks0 H)) as I. fold ks in I.
  destruct (ring_no_primary ks I HN) as (h & E). exists h. intros e data nonce enc.
  unfold Encrypt, Sign, AttachedSign, UnversionedSign. rewrite E. repeat split.
Qed.
Print Assumptions C32_no_primary_error_refuted.

Example C32_case : (exists k, ring_of (run hmac_set []) 2 = Some (PRIMARY, k)) /\
  (forall n k, ring_of (run hmac_set [OpDemote 2]) n <> Some (PRIMARY, k)).
Proof.
  split; [eexists; reflexivity|]. intros n k C.
  assert (D : does hmac_set (Demote hmac_set 2) (ring_demote (ring_of hmac_set) 2)) by apply (C28_promote_demote_revoke _ _ _ [] 2 hmac_set_opens).
  destruct D as [_ D]. change (run hmac_set [OpDemote 2]) with (fst (Demote hmac_set 2)) in C. rewrite D in C. cbv beta in C.
  destruct (n =? 2) eqn:E2; [discriminate|]. unfold ring_of in C. cbn [hmac_set ks_mvers assoc] in C. rewrite (Z.eqb_sym 2), E2 in C.
  destruct (1 =? n); discriminate.
Qed.

(** ** C33 *)
(** The documented table: which purposes each class accepts. *)
Definition accepts (c : kclass) : list purpose :=
  match c with
  | KeyczarBase => []
  | GenericKeyczar => [DECRYPT_AND_ENCRYPT; ENCRYPT; SIGN_AND_VERIFY; VERIFY]
  | Encrypter => [DECRYPT_AND_ENCRYPT; ENCRYPT]
  | Crypter => [DECRYPT_AND_ENCRYPT]
  | Verifier | UnversionedVerifier => [SIGN_AND_VERIFY; VERIFY]
  | Signer | UnversionedSigner => [SIGN_AND_VERIFY]
  end.

(** A set of another purpose, or an encrypted set without an encrypted reader, is refused
    whatever its keys are and however reading them would end. *)
Theorem C33_refused_before_reading_keys : forall c s m enc,
  meta_Read s = Ok m -> ~ In (m_purpose m) (accepts c) \/ (m_encrypted m = true /\ enc = false) ->
  forall keys, open_keyset c (MkReader (Ok s) keys enc) = Raise KeyczarError.
Proof.
  intros c s m enc HM H keys. unfold open_keyset. cbn [rd_meta rd_encrypted bind]. rewrite HM. cbn [bind].
  destruct (IsAcceptablePurpose c (m_purpose m)) eqn:E; [|reflexivity]. cbn [negb]. destruct H as [H|[-> ->]]; [|reflexivity].
  exfalso. apply H. destruct c, (m_purpose m); try discriminate E; cbn; tauto.
Qed.
Print Assumptions C33_refused_before_reading_keys.

(** What is opened, and used afterwards, has an accepted purpose; and exactly the sets with one
    get as far as their keys. *)
Theorem C33_opened_sets_have_the_purpose : forall c rd ks ops, open_keyset c rd = Ok ks ->
  In (ks_purpose (run ks ops)) (accepts c) /\ (ks_encrypted (run ks ops) = true -> rd_encrypted rd = true).
Proof.
  intros c rd ks ops H. destruct (C28_attributes_kept c rd ks ops H) as (_ & -> & _ & ->).
  destruct (open_ok c rd ks H) as (s & m & l & _ & _ & HA & HE & _ & _ & -> & _ & -> & _).
  split; [|exact HE]. destruct c, (m_purpose m); try discriminate HA; cbn; tauto.
Qed.
Print Assumptions C33_opened_sets_have_the_purpose.

Theorem C33_accepted_sets_reach_their_keys : forall c s m enc e keys,
  meta_Read s = Ok m -> In (m_purpose m) (accepts c) -> (m_encrypted m = true -> enc = true) ->
  (exists n v, In (n, v) (m_versions m)) -> (forall n, keys n = Raise e) ->
  open_keyset c (MkReader (Ok s) keys enc) = Raise e.
Proof.
  intros c s m enc e keys HM HA HE (n & v & HV) HK. unfold open_keyset. cbn [rd_meta rd_encrypted bind]. rewrite HM. cbn [bind].
  assert (E : IsAcceptablePurpose c (m_purpose m) = true) by (destruct c, (m_purpose m); cbn in HA; intuition discriminate).
  rewrite E. cbn [negb].
  assert (E2 : m_encrypted m && negb enc = false) by (destruct (m_encrypted m); [rewrite HE by reflexivity; reflexivity | reflexivity]).
  rewrite E2. cbv zeta. unfold meta_versions. destruct (m_versions m) as [|[n0 v0] l]; [destruct HV|].
  cbn [map snd load_keys rd_key]. rewrite HK. destruct (status_eqb (v_status v0) PRIMARY); reflexivity.
Qed.
Print Assumptions C33_accepted_sets_reach_their_keys.

Example C33_case : exists m, meta_Read hmac_meta = Ok m /\ ~ In (m_purpose m) (accepts Crypter) /\
  In (m_purpose m) (accepts Signer) /\ exists v, In (1, v) (m_versions m).
Proof.
  assert (E : exists m, meta_Read hmac_meta = Ok m /\ m_purpose m = SIGN_AND_VERIFY /\ exists v, In (1, v) (m_versions m)).
  { eexists. split; [vm_compute; reflexivity|]. split; [reflexivity|]. eexists. left. reflexivity. }
  destruct E as (m & HM & HP & HV). exists m. rewrite HP. split; [exact HM|]. split; [cbn; intuition discriminate|].
  split; [cbn; tauto | exact HV].
Qed.

(** ** C34 *)
(** [held ks ops k]: [k] was the key of a version at some moment of the history.  (A revoked key
    stays in the object that revoked it, see C31, so this is what the header can name.) *)
Definition held (ks : keyset) (ops : list op) (k : key) : Prop :=
  exists before after n s, ops = before ++ after /\ ring_of (run ks before) n = Some (s, k).

(** [named ks ops id k]: moreover, [id] are the 4 bytes of its identifier. *)
Definition named (ks : keyset) (ops : list op) (id : str) (k : key) : Prop :=
  held ks ops k /\ key_hash_id k = Ok (Base64WSEncode id).

Lemma vkeys_kept ks o k op : inv ks -> In (o, k) (ks_vkeys ks) -> In (o, k) (ks_vkeys (fst (step ks op))).
Proof. intros I H. destruct (vkeys_step ks op I) as [->|(k' & h & n & -> & _)]; [exact H | apply in_or_app; left; exact H]. Qed.

Lemma vkeys_run ks o k ops : inv ks -> In (o, k) (ks_vkeys ks) -> In (o, k) (ks_vkeys (run ks ops)).
Proof. revert ks. induction ops as [|op ops IH]; intros ks I H; [exact H|]. apply (IH (fst (step ks op))); [apply inv_step, I | apply vkeys_kept; assumption]. Qed.

Lemma vkeys_held c rd ks ops k : open_keyset c rd = Ok ks -> (exists o, In (o, k) (ks_vkeys (run ks ops))) <-> held ks ops k.
Proof.
  intros H. pose proof (inv_open c rd ks H) as I. split.
  - induction ops as [|op ops IH] using rev_ind.
    + intros HI. apply (opened_ring c rd ks k H) in HI as (n & s & HR). exists [], [], n, s. split; [reflexivity | exact HR].
    + intros (o & HI). assert (E : run ks (ops ++ [op]) = fst (step (run ks ops) op)) by (rewrite run_app; reflexivity).
      pose proof (inv_run ks ops I) as I1. rewrite E in HI.
      assert (OLD : In (o, k) (ks_vkeys (run ks ops)) -> held ks (ops ++ [op]) k).
      { intros HO. destruct (IH (ex_intro _ o HO)) as (b & a & n & s & E1 & HR). exists b, (a ++ [op]), n, s. split; [rewrite E1, app_assoc; reflexivity | exact HR]. }
      destruct op as [ds s size|n|n|n].
      2-4: apply OLD; cbn [step] in HI; revert HI.
      2: unfold Promote; destruct (GetVersion _ n); [destruct (v_status _); cbv zeta; cbn; try destruct (ks_primary (run ks ops)); auto | auto].
      2: unfold Demote; destruct (GetVersion _ n); [destruct (v_status _); auto | auto].
      2: unfold Revoke; destruct (GetVersion _ n); [destruct (v_status _); auto | auto].
      * cbn [step] in HI. rewrite AddVersion_eq in HI. cbv zeta in HI. destruct (negb _) eqn:EN; [apply OLD; exact HI|].
        destruct (gen_unique _ _ _ ds) as [[k' h]|e] eqn:EG; cbn [fst] in HI.
        -- rewrite AddKey_eq in HI by assumption. cbn [ks_vkeys] in HI. apply in_app_or in HI as [HI|[HI|[]]]; [apply OLD; exact HI|]. apply pair_inj in HI as [<- <-].
           assert (I2 : inv (run ks (ops ++ [OpAdd ds s size]))) by (apply inv_run, I).
           assert (EM : assoc Z.eqb (ks_mvers (run ks (ops ++ [OpAdd ds s size]))) (max_version (run ks ops) + 1) = Some (length (ks_objs (run ks ops))) /\
                        In (length (ks_objs (run ks ops)), k') (ks_vkeys (run ks (ops ++ [OpAdd ds s size])))).
           { rewrite E. cbn [step]. rewrite AddVersion_eq. cbv zeta. rewrite EN, EG. cbn [fst]. rewrite AddKey_eq by assumption. cbn [ks_mvers ks_vkeys].
             split; [|apply in_or_app; right; left; reflexivity]. apply (assoc_NoDup Z.eqb_eq); [|apply in_or_app; right; left; reflexivity].
             pose proof (inv_mkeys _ I2) as ND. rewrite E in ND. cbn [step] in ND. rewrite AddVersion_eq in ND. cbv zeta in ND. rewrite EN, EG in ND. cbn [fst] in ND.
             rewrite AddKey_eq in ND by assumption. exact ND. }
           destruct EM as [EM EV]. destruct (ring_known _ _ _ I2 EM) as (k2 & HK & HR).
           pose proof (inv_vnodup _ I2) as ND. unfold ks_versions in ND. rewrite (assoc_NoDup Nat.eqb_eq ND EV) in HK. apply Some_inj in HK as <-.
           exists (ops ++ [OpAdd ds s size]), [], (max_version (run ks ops) + 1), (v_status (deref (ks_objs (run ks (ops ++ [OpAdd ds s size]))) (length (ks_objs (run ks ops))))).
           split; [rewrite app_nil_r; reflexivity | exact HR].
        -- destruct (prepare_same (run ks ops) s I1) as (_ & EV & _). rewrite EV in HI. apply OLD, HI.
  - intros (b & a & n & s & -> & HR). pose proof (inv_run ks b I) as I1. destruct (ring_entry _ n s k I1 HR) as (o & _ & HK & _).
    exists o. rewrite run_app. apply vkeys_run; [exact I1 | apply (assoc_In Nat.eqb_eq HK)].
Qed.

Lemma dispatch c rd ks0 ops b id rest : open_keyset c rd = Ok ks0 -> len id = 4 -> let ks := run ks0 ops in
  (b <> x00 -> ParseHeader ks (slice_to (b :: id ++ rest) HEADER_SIZE) = Raise (BadVersionError (ord b))) /\
  (b = x00 -> (exists k, named ks0 ops id k /\ ParseHeader ks (slice_to (b :: id ++ rest) HEADER_SIZE) = Ok k) \/
              ((forall k, ~ named ks0 ops id k) /\ ParseHeader ks (slice_to (b :: id ++ rest) HEADER_SIZE) = Raise (KeyNotFoundError (Base64WSEncode id)))).
Proof.
  intros H L ks. assert (ES : slice_to (b :: id ++ rest) HEADER_SIZE = b :: id).
  { change (b :: id ++ rest) with ((b :: id) ++ rest). apply slice_to_app. rewrite len_cons. change HEADER_SIZE with 5. lia. }
  rewrite ES. unfold ParseHeader. change (index (b :: id) 0) with (Ok b). cbn [bind].
  assert (E1 : slice_from (b :: id) 1 = id) by (apply (slice_from_app [b] id); reflexivity).
  rewrite E1. split.
  - intros Hb. destruct (ord b =? VERSION) eqn:E; [|reflexivity]. exfalso. apply Hb. apply ord_inj. apply Z.eqb_eq in E. exact E.
  - intros ->. change (ord x00 =? VERSION) with true. cbn [negb]. pose proof (inv_run ks0 ops (inv_open c rd ks0 H)) as I. fold ks in I.
    destruct (GetKey_hash_spec ks (Base64WSEncode id) I) as [A B].
    destruct (GetKey_hash ks (Base64WSEncode id)) as [k|e] eqn:E.
    + left. exists k. split; [|reflexivity]. destruct (A k eq_refl) as [HH HI]. split; [apply (vkeys_held c rd ks0 ops k H); exact HI | exact HH].
    + right. destruct (B e eq_refl) as [-> HN]. split; [|reflexivity]. intros k [HR HH].
      apply (vkeys_held c rd ks0 ops k H) in HR as (o & HI). apply (HN o k HI HH).
Qed.

Theorem C34_decrypt_dispatch : forall c rd ks0 ops, open_keyset c rd = Ok ks0 -> let ks := run ks0 ops in
  (forall input, len input < 5 -> Decrypt ks input None = Raise (ShortCiphertextError (len input))) /\
  (forall b id rest, len id = 4 -> let input := b :: id ++ rest in
    (b <> x00 -> Decrypt ks input None = Raise (BadVersionError (ord b))) /\
    (b = x00 -> (forall k, ~ named ks0 ops id k) -> Decrypt ks input None = Raise (KeyNotFoundError (Base64WSEncode id))) /\
    (b = x00 -> forall k, named ks0 ops id k -> exists k', named ks0 ops id k' /\ Decrypt ks input None = key_Decrypt k' input) /\
    ((exists v, Decrypt ks input None = Raise (BadVersionError v)) -> b <> x00) /\
    ((exists h, Decrypt ks input None = Raise (KeyNotFoundError h)) -> b = x00 /\ forall k, ~ named ks0 ops id k)).
Proof.
  intros c rd ks0 ops H ks. split.
  - intros input HL. unfold Decrypt. cbn [apply_codec bind]. change HEADER_SIZE with 5.
    destruct (len input <? 5) eqn:E; [reflexivity | lia].
  - intros b id rest L. cbv zeta. destruct (dispatch c rd ks0 ops b id rest H L) as [D1 D2]. fold ks in D1, D2.
    assert (E : Decrypt ks (b :: id ++ rest) None = (let* k := ParseHeader ks (slice_to (b :: id ++ rest) HEADER_SIZE) in key_Decrypt k (b :: id ++ rest))).
    { unfold Decrypt. cbn [apply_codec bind]. assert (E : len (b :: id ++ rest) <? HEADER_SIZE = false).
      { rewrite len_cons, len_app. change HEADER_SIZE with 5. pose proof (len_nonneg rest). lia. }
      rewrite E. reflexivity. }
    rewrite E. destruct (Byte.byte_eq_dec b x00) as [Hb|Hb].
    + destruct (D2 Hb) as [(k & HK & ->)|(HN & ->)]; cbn [bind].
      * assert (Q := key_Decrypt_quiet k (b :: id ++ rest)).
        split; [intros C; contradiction|]. split; [intros _ C; exfalso; apply (C k HK)|].
        split; [intros _ k' HK'; exists k; split; [exact HK | reflexivity]|].
        split; [intros (v & C); specialize (Q _ C); discriminate | intros (h & C); specialize (Q _ C); discriminate].
      * split; [intros C; contradiction|]. split; [intros _ _; reflexivity|].
        split; [intros _ k HK; exfalso; apply (HN k HK)|]. split; [intros (v & C); discriminate | intros _; split; assumption].
    + rewrite (D1 Hb). cbn [bind]. split; [intros _; reflexivity|]. split; [intros C; contradiction|]. split; [intros C; contradiction|].
      split; [intros _; exact Hb | intros (h & C); discriminate].
Qed.
Print Assumptions C34_decrypt_dispatch.

Theorem C34_verify_dispatch : forall c rd ks0 ops, open_keyset c rd = Ok ks0 -> let ks := run ks0 ops in
  (forall data sig, len sig < 5 -> Verify ks data sig None = Raise (ShortSignatureError (len sig))) /\
  (forall data b id rest, len id = 4 -> let sig := b :: id ++ rest in
    (b <> x00 -> Verify ks data sig None = Raise (BadVersionError (ord b))) /\
    (b = x00 -> (forall k, ~ named ks0 ops id k) -> Verify ks data sig None = Raise (KeyNotFoundError (Base64WSEncode id))) /\
    (b = x00 -> forall k, named ks0 ops id k -> exists k', named ks0 ops id k' /\ Verify ks data sig None = key_Verify k' (data ++ VERSION_BYTE) rest) /\
    ((exists v, Verify ks data sig None = Raise (BadVersionError v)) -> b <> x00) /\
    ((exists h, Verify ks data sig None = Raise (KeyNotFoundError h)) -> b = x00 /\ forall k, ~ named ks0 ops id k)).
Proof.
  intros c rd ks0 ops H ks. split.
  - intros data sig HL. unfold Verify. cbn [apply_codec bind]. change HEADER_SIZE with 5.
    destruct (len sig <? 5) eqn:E; [reflexivity | lia].
  - intros data b id rest L. cbv zeta. destruct (dispatch c rd ks0 ops b id rest H L) as [D1 D2]. fold ks in D1, D2.
    assert (E : Verify ks data (b :: id ++ rest) None = (let* k := ParseHeader ks (slice_to (b :: id ++ rest) HEADER_SIZE) in key_Verify k (data ++ VERSION_BYTE) rest)).
    { unfold Verify. cbn [apply_codec bind]. assert (E : len (b :: id ++ rest) <? HEADER_SIZE = false).
      { rewrite len_cons, len_app. change HEADER_SIZE with 5. pose proof (len_nonneg rest). lia. }
      rewrite E. unfold InternalVerify. cbn [PackByteArray bind app].
      assert (ES : slice_from (b :: id ++ rest) HEADER_SIZE = rest).
      { change (b :: id ++ rest) with ((b :: id) ++ rest). apply slice_from_app. rewrite len_cons. change HEADER_SIZE with 5. lia. }
      rewrite ES. reflexivity. }
    rewrite E. destruct (Byte.byte_eq_dec b x00) as [Hb|Hb].
    + destruct (D2 Hb) as [(k & HK & ->)|(HN & ->)]; cbn [bind].
      * assert (Q := key_Verify_quiet k (data ++ VERSION_BYTE) rest).
        split; [intros C; contradiction|]. split; [intros _ C; exfalso; apply (C k HK)|].
        split; [intros _ k' HK'; exists k; split; [exact HK | reflexivity]|].
        split; [intros (v & C); specialize (Q _ C); discriminate | intros (h & C); specialize (Q _ C); discriminate].
      * split; [intros C; contradiction|]. split; [intros _ _; reflexivity|].
        split; [intros _ k HK; exfalso; apply (HN k HK)|]. split; [intros (v & C); discriminate | intros _; split; assumption].
    + rewrite (D1 Hb). cbn [bind]. split; [intros _; reflexivity|]. split; [intros C; contradiction|]. split; [intros C; contradiction|].
      split; [intros _; exact Hb | intros (h & C); discriminate].
Qed.
Print Assumptions C34_verify_dispatch.

(** With distinct identifiers (C29) the named key is the only candidate. *)
Theorem C34_named_key_unique : forall c rd ks0 ops id k k', open_keyset c rd = Ok ks0 -> ids_distinct (run ks0 ops) ->
  named ks0 ops id k -> named ks0 ops id k' -> k = k'.
Proof.
  intros c rd ks0 ops id k k' H D [HR HH] [HR' HH']. pose proof (inv_run ks0 ops (inv_open c rd ks0 H)) as I.
  apply (vkeys_held c rd ks0 ops k H) in HR as (o & HI). apply (vkeys_held c rd ks0 ops k' H) in HR' as (o' & HI').
  pose proof (ids_lookup _ o k _ I D HI HH) as A. pose proof (ids_lookup _ o' k' _ I D HI' HH') as B.
  rewrite A in B. apply Ok_inj in B. exact B.
Qed.
Print Assumptions C34_named_key_unique.

(** The key of the revoked version 1 is still named. *)
Example C34_case : open_keyset GenericKeyczar hmac_reader = Ok hmac_set /\
  (exists k, named hmac_set [OpDemote 1; OpRevoke 1] (map chr [62; 83; 78; 71]) k) /\ ring_of (run hmac_set [OpDemote 1; OpRevoke 1]) 1 = None.
Proof.
  split; [exact hmac_set_opens|]. split; [|reflexivity]. eexists. split; [exists [], [OpDemote 1; OpRevoke 1], 1; eexists; split; reflexivity | vm_compute; reflexivity].
Qed.
