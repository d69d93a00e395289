(** * Props_Threads4: races between threads that change the set (C90). *)
From Coq Require Import Strings.String.
From Coq Require Import List ZArith NArith Bool Lia ZifyBool ZifyNat ZifyN.
From Coq.Init Require Import Byte.
From Verif Require Import PyBase PyFacts Util UtilFacts Base64 Json JsonFacts KeyInfo KeyData SymKeys AsymKeys Keys Keyczar KeyRing KeyczarFacts Disk DiskFacts
  Props_Keyset Props_Sign Threads Props_Threads Props_Threads2 Props_Threads3.
Import ListNotations.
Local Open Scope Z_scope.
Ltac Zify.zify_post_hook ::= idtac.

Lemma first {A} (ks ks' : keyset) f (t u : thread A) q : f ks = (ks', t) -> turns (ks', [t; u]) q -> turns (ks, [Access f; u]) q.
Proof. intros H. apply TurnsMore. exact (Turn ks ks' [] f t [u] H). Qed.
Lemma second {A} (ks ks' : keyset) f (t u : thread A) q : f ks = (ks', u) -> turns (ks', [t; u]) q -> turns (ks, [t; Access f]) q.
Proof. intros H. apply TurnsMore. exact (Turn ks ks' [t] f u [] H). Qed.
Lemma second_alone {A} (u t : thread A) ks ks' r q : alone u ks = (ks', r) -> turns (ks', [t; Finished r]) q -> turns (ks, [t; u]) q.
Proof.
  revert ks. induction u as [r0|f IH] using thread_rec2; intros ks H HT; cbn [alone] in H; [apply pair_inj in H as [-> ->]; exact HT|].
  specialize (IH ks). destruct (f ks) as [k1 u1] eqn:E. apply (second _ _ _ _ _ _ E). apply IH; assumption.
Qed.
Lemma first_alone {A} (t u : thread A) ks ks' r q : alone t ks = (ks', r) -> turns (ks', [Finished r; u]) q -> turns (ks, [t; u]) q.
Proof.
  revert ks. induction t as [r0|f IH] using thread_rec2; intros ks H HT; cbn [alone] in H; [apply pair_inj in H as [-> ->]; exact HT|].
  specialize (IH ks). destruct (f ks) as [k1 t1] eqn:E. apply (first _ _ _ _ _ _ E). apply IH; assumption.
Qed.
Lemma alone_tmap {A B} (f : A -> B) t : forall k, alone (tmap f t) k = let (k', r) := alone t k in (k', res_map f r).
Proof. induction t as [r0|g IH] using thread_rec2; intros k; cbn [tmap alone]; [reflexivity|]. specialize (IH k). destruct (g k) as [k2 t2]. apply IH. Qed.

Lemma ring_in ks n s k : inv ks -> ring_of ks n = Some (s, k) -> exists o, assoc Z.eqb (ks_mvers ks) n = Some o /\ assoc Nat.eqb (ks_vkeys ks) o = Some k /\ v_status (deref (ks_objs ks) o) = s /\ (o < length (ks_objs ks))%nat /\ v_num (deref (ks_objs ks) o) = n.
Proof.
  intros I H. destruct (ring_entry ks n s k I H) as (o & A & B & C & D). exists o. repeat (split; [assumption|]). split; [apply (inv_range ks I), D | apply (inv_mvers ks I n o (assoc_In Z.eqb_eq A))].
Qed.

(** Setting the status of one object. *)
Lemma status_set k q s o : (q < length (ks_objs k))%nat -> v_status (deref (ks_objs (set_status k q s)) o) = if Nat.eqb q o then s else v_status (deref (ks_objs k) o).
Proof. intros H. cbn [set_status set_objs ks_objs]. apply deref_status, H. Qed.

(** ** Two threads promote *)

(** Metadata with two primary versions is refused. *)
Lemma two_refused c rd m s ks n1 n2 v1 v2 : rd_meta rd = Ok s -> meta_Read s = Ok m -> n1 <> n2 -> assoc Z.eqb (m_versions m) n1 = Some v1 -> assoc Z.eqb (m_versions m) n2 = Some v2 ->
  v_status v1 = PRIMARY -> v_status v2 = PRIMARY -> open_keyset c rd <> Ok ks.
Proof.
  intros HM HR N A1 A2 S1 S2 H. apply open_ok in H as (s' & m' & l & HM' & HR' & _ & _ & _ & _ & _ & _ & _ & _ & _ & _ & _ & FP). rewrite HM in HM'. apply Ok_inj in HM' as <-. rewrite HR in HR'. apply Ok_inj in HR' as <-.
  destruct (find_primary_none _ _ _ FP) as [P1 _]. apply (assoc_In Z.eqb_eq) in A1. apply (assoc_In Z.eqb_eq) in A2.
  pose proof (proj2 (meta_Read_wf s m HR)) as W. rewrite Forall_forall in W. pose proof (W _ A1) as W1. pose proof (W _ A2) as W2. cbn [fst snd] in W1, W2.
  apply (in_map snd) in A1. apply (in_map snd) in A2. apply In_nth_error in A1 as (i & I1). apply In_nth_error in A2 as (j & I2). cbn [snd] in I1, I2.
  pose proof (P1 i v1 I1 S1) as E1. pose proof (P1 j v2 I2 S2) as E2. rewrite E1 in E2. apply Some_inj in E2. assert (i = j) by lia. subst j. rewrite I1 in I2. apply Some_inj in I2. congruence.
Qed.

(** Two threads that promote two active versions can both return normally and leave two primary versions.
    The metadata then written cannot be read by any class. *)
Theorem C90_two_promotes_refuted : forall ks n1 n2 k1 k2, reached ks -> n1 <> n2 -> ring_of ks n1 = Some (ACTIVE, k1) -> ring_of ks n2 = Some (ACTIVE, k2) -> text_ok (ks_name ks) ->
  exists ks', turns (ks, map running [Change (OpPromote n1); Change (OpPromote n2)]) (ks', [Finished (Ok (inl tt)); Finished (Ok (inl tt))]) /\
    ring_of ks' n1 = Some (PRIMARY, k1) /\ ring_of ks' n2 = Some (PRIMARY, k2) /\
    (forall s c rd ks2, meta_str (ks_meta ks') = Ok s -> rd_meta rd = Ok s -> open_keyset c rd <> Ok ks2).
Proof.
  intros ks n1 n2 k1 k2 R N H1 H2 HN. pose proof (reached_inv ks R) as I. destruct (ring_in ks n1 _ _ I H1) as (o1 & A1 & B1 & C1 & D1 & M1). destruct (ring_in ks n2 _ _ I H2) as (o2 & A2 & B2 & C2 & D2 & M2).
  assert (NO : o1 <> o2) by congruence.
  set (drop := fun k : keyset => match ks_primary ks with Some p => set_status k p ACTIVE | None => k end).
  set (ka := drop (set_status ks o1 PRIMARY)). set (kb := drop (set_status ka o2 PRIMARY)). set (ks' := set_primary (set_primary kb (Some o2)) (Some o1)).
  assert (PO : forall p, ks_primary ks = Some p -> p <> o1 /\ p <> o2 /\ (p < length (ks_objs ks))%nat).
  { intros p HP. destruct (inv_prim2 ks I p HP) as (L & S & _). split; [|split]; [intros ->; congruence | intros ->; congruence | exact L]. }
  assert (LEN : length (ks_objs ka) = length (ks_objs ks)).
  { unfold ka, drop. destruct (ks_primary ks); cbn [set_status set_objs ks_objs]; rewrite ?length_upd; reflexivity. }
  assert (Sa : forall o, (o = o1 \/ o = o2) -> v_status (deref (ks_objs ka) o) = if Nat.eqb o1 o then PRIMARY else ACTIVE).
  { intros o HO. unfold ka, drop. assert (E : v_status (deref (ks_objs (set_status ks o1 PRIMARY)) o) = if Nat.eqb o1 o then PRIMARY else ACTIVE).
    { rewrite status_set by exact D1. destruct (Nat.eqb o1 o) eqn:E; [reflexivity|]. destruct HO as [->| ->]; [rewrite Nat.eqb_refl in E; discriminate | exact C2]. }
    destruct (ks_primary ks) as [p|] eqn:EP; [|exact E]. destruct (PO p eq_refl) as (P1 & P2 & P3). rewrite status_set by (cbn [set_status set_objs ks_objs]; rewrite length_upd; exact P3).
    assert (X : Nat.eqb p o = false) by (apply Nat.eqb_neq; destruct HO as [->| ->]; assumption). rewrite X. exact E. }
  assert (Sb : forall o, (o = o1 \/ o = o2) -> v_status (deref (ks_objs ks') o) = PRIMARY).
  { intros o HO. change (ks_objs ks') with (ks_objs kb). unfold kb, drop. assert (E : v_status (deref (ks_objs (set_status ka o2 PRIMARY)) o) = PRIMARY).
    { rewrite status_set by (rewrite LEN; exact D2). destruct (Nat.eqb o2 o) eqn:E; [reflexivity|]. destruct HO as [->| ->]; [|rewrite Nat.eqb_refl in E; discriminate]. rewrite Sa by (left; reflexivity). rewrite Nat.eqb_refl. reflexivity. }
    destruct (ks_primary ks) as [p|] eqn:EP; [|exact E]. destruct (PO p eq_refl) as (P1 & P2 & P3). rewrite status_set by (cbn [set_status set_objs ks_objs]; rewrite length_upd, LEN; exact P3).
    assert (X : Nat.eqb p o = false) by (apply Nat.eqb_neq; destruct HO as [->| ->]; assumption). rewrite X. exact E. }
  assert (MV : ks_mvers ka = ks_mvers ks /\ ks_vkeys ka = ks_vkeys ks /\ ks_primary ka = ks_primary ks) by (unfold ka, drop; destruct (ks_primary ks) eqn:E; cbn; rewrite ?E; auto).
  assert (MW : ks_mvers ks' = ks_mvers ks /\ ks_vkeys ks' = ks_vkeys ks) by (unfold ks', kb, drop; destruct MV as (E1 & E2 & _); destruct (ks_primary ks); cbn [set_primary set_status set_objs ks_mvers ks_vkeys]; auto).
  assert (NUM : forall o, v_num (deref (ks_objs ks') o) = v_num (deref (ks_objs ks) o)).
  { intros o. unfold ks', kb, ka, drop. destruct (ks_primary ks); cbn [set_primary set_status set_objs ks_objs]; rewrite ?deref_num; reflexivity. }
  exists ks'. split; [|split; [|split]].
  - cbn [map running changing]. set (T2 := tmap inl (Promote_t n2)). unfold Promote_t, with_version, if_status, read. cbn [tmap].
    eapply first; [reflexivity|]. rewrite A1. cbn [tmap]. eapply first; [reflexivity|]. rewrite C1. cbn [status_eqb tmap]. eapply first; [reflexivity|]. rewrite C1. cbn [status_eqb tmap write].
    eapply first; [reflexivity|]. unfold demote_primary_t, read, write. cbn [tmap].
    assert (L2 : forall T : thread (unit + answer), turns (ka, [T; T2]) (set_primary kb (Some o2), [T; Finished (Ok (inl tt))])).
    { intros T. eapply second_alone; [|apply TurnsNone]. unfold T2. rewrite alone_tmap. unfold Promote_t, with_version, if_status, read, write. cbn [alone]. destruct MV as (E1 & E2 & E3). rewrite E1, A2. cbn [alone].
      rewrite Sa by (right; reflexivity). assert (X : Nat.eqb o1 o2 = false) by (apply Nat.eqb_neq; exact NO). rewrite X. cbn [status_eqb alone]. rewrite Sa by (right; reflexivity). rewrite X. cbn [status_eqb alone]. rewrite alone_drop. cbn [alone].
      change (ks_primary (set_status ka o2 PRIMARY)) with (ks_primary ka). rewrite E3. reflexivity. }
    assert (TR : forall p q r : keyset * list (thread (unit + answer)), turns p q -> turns q r -> turns p r) by (intros p q r X; revert r; induction X; intros; [assumption | eapply TurnsMore; eauto]).
    eapply first; [reflexivity|]. change (ks_primary (set_status ks o1 PRIMARY)) with (ks_primary ks). destruct (ks_primary ks) as [p|] eqn:EP; cbn [tmap].
    + eapply first; [reflexivity|]. change (ks_primary (set_status ks o1 PRIMARY)) with (ks_primary ks). rewrite EP. cbn [tmap]. eapply first; [reflexivity|].
      eapply TR; [apply L2|]. eapply first; [reflexivity|]. apply TurnsNone.
    + eapply TR; [apply L2|]. eapply first; [reflexivity|]. apply TurnsNone.
  - unfold ring_of. destruct MW as [-> ->]. rewrite A1, B1. rewrite Sb by (left; reflexivity). reflexivity.
  - unfold ring_of. destruct MW as [-> ->]. rewrite A2, B2. rewrite Sb by (right; reflexivity). reflexivity.
  - intros s c rd ks2 HS HM. assert (AS : forall n o, assoc Z.eqb (ks_mvers ks) n = Some o -> assoc Z.eqb (m_versions (ks_meta ks')) n = Some (deref (ks_objs ks') o)).
    { intros n o. unfold ks_meta. cbn [m_versions]. destruct MW as [-> _]. generalize (ks_mvers ks). intros mv. induction mv as [|[a b] l IH]; cbn [map assoc fst snd]; [discriminate|]. destruct (a =? n); [intros E; apply Some_inj in E; subst b; reflexivity | exact IH]. }
    apply (two_refused c rd (ks_meta ks') s ks2 n1 n2 _ _ HM) with (4 := AS n2 o2 A2) (3 := AS n1 o1 A1); [|exact N | apply Sb; left; reflexivity | apply Sb; right; reflexivity].
    apply meta_rt; [| |exact HS].
    + pose proof (ks_meta_wf ks I) as [W1 W2]. unfold ks_meta in *. cbn [m_versions] in *. destruct MW as [-> _]. split; cbn [m_versions]; [rewrite map_map in *; exact W1|]. apply Forall_map. apply Forall_map in W2. revert W2. apply Forall_impl. intros [a b]. cbn [fst snd]. rewrite NUM. auto.
    + assert (E : m_name (ks_meta ks') = ks_name ks) by (unfold ks', kb, ka, drop, ks_meta; destruct (ks_primary ks); reflexivity). rewrite E. exact HN.
Qed.
Print Assumptions C90_two_promotes_refuted.

(** ** A thread promotes while another one demotes *)

(** The promotion can fail with AttributeError halfway: its version is then PRIMARY, but the object has no
    primary key, so that nothing can be encrypted or signed. *)
Theorem C90_promote_demote_refuted : forall ks n1 n2 k1 k2, reached ks -> ring_of ks n1 = Some (PRIMARY, k1) -> ring_of ks n2 = Some (ACTIVE, k2) ->
  exists ks', turns (ks, map running [Change (OpPromote n2); Change (OpDemote n1)]) (ks', [Finished (Raise AttributeError); Finished (Ok (inl tt))]) /\
    ring_of ks' n1 = Some (ACTIVE, k1) /\ ring_of ks' n2 = Some (PRIMARY, k2) /\
    (forall e m d, Encrypt e ks' m d = Raise (KeyNotFoundError (bs "None"))) /\ (forall e m d, Sign e ks' m d = Raise (KeyNotFoundError (bs "None"))).
Proof.
  intros ks n1 n2 k1 k2 R H1 H2. pose proof (reached_inv ks R) as I. destruct (ring_in ks n1 _ _ I H1) as (o1 & A1 & B1 & C1 & D1 & M1). destruct (ring_in ks n2 _ _ I H2) as (o2 & A2 & B2 & C2 & D2 & M2).
  assert (NO : o1 <> o2) by congruence. assert (EP : ks_primary ks = Some o1). { apply (inv_prim1 ks I); [|exact C1]. apply (inv_mvers ks I n1 o1 (assoc_In Z.eqb_eq A1)). }
  set (ka := set_status ks o2 PRIMARY). set (ks' := set_primary (set_status ka o1 ACTIVE) None). exists ks'.
  assert (L : (o1 < length (ks_objs ka))%nat) by (unfold ka; cbn [set_status set_objs ks_objs]; rewrite length_upd; exact D1).
  assert (X : Nat.eqb o2 o1 = false) by (apply Nat.eqb_neq; congruence). assert (Y : Nat.eqb o1 o2 = false) by (apply Nat.eqb_neq; congruence).
  split; [|split; [|split; [|split; reflexivity]]].
  - cbn [map running changing]. set (T2 := tmap inl (Demote_t n1)). unfold Promote_t, with_version, if_status, read. cbn [tmap].
    eapply first; [reflexivity|]. rewrite A2. cbn [tmap]. eapply first; [reflexivity|]. rewrite C2. cbn [status_eqb tmap]. eapply first; [reflexivity|]. rewrite C2. cbn [status_eqb tmap write].
    eapply first; [reflexivity|]. unfold demote_primary_t, read, write. cbn [tmap]. eapply first; [reflexivity|]. change (ks_primary (set_status ks o2 PRIMARY)) with (ks_primary ks). rewrite EP. cbn [tmap]. fold ka.
    eapply second_alone.
    + unfold T2. rewrite alone_tmap. unfold Demote_t, with_version, if_status, read, write. cbn [alone]. change (ks_mvers ka) with (ks_mvers ks). rewrite A1. cbn [alone].
      unfold ka at 1. rewrite status_set by exact D2. rewrite X, C1. cbn [status_eqb alone]. reflexivity.
    + eapply first; [reflexivity|]. cbn [set_primary ks_primary tmap res_map]. apply TurnsNone.
  - unfold ring_of. change (ks_mvers ks') with (ks_mvers ks). change (ks_vkeys ks') with (ks_vkeys ks). rewrite A1, B1. change (ks_objs ks') with (ks_objs (set_status ka o1 ACTIVE)). rewrite status_set by exact L. rewrite Nat.eqb_refl. reflexivity.
  - unfold ring_of. change (ks_mvers ks') with (ks_mvers ks). change (ks_vkeys ks') with (ks_vkeys ks). rewrite A2, B2. change (ks_objs ks') with (ks_objs (set_status ka o1 ACTIVE)). rewrite status_set by exact L. rewrite Y.
    unfold ka. rewrite status_set by exact D2. rewrite Nat.eqb_refl. reflexivity.
Qed.
Print Assumptions C90_promote_demote_refuted.

(** ** Two threads add *)

(** Both can return normally although only one of the two keys gets a version. *)
Theorem C90_two_adds_refuted : forall ks d1 d2 s1 s2 size1 size2 k1 k2 h1 h2, reached ks -> s1 <> PRIMARY -> s2 <> PRIMARY ->
  In size1 (sizes (ks_type ks)) -> In size2 (sizes (ks_type ks)) -> GenKey d1 (ks_type ks) (Some size1) = Ok k1 -> GenKey d2 (ks_type ks) (Some size2) = Ok k2 ->
  key_hash_id k1 = Ok h1 -> key_hash_id k2 = Ok h2 -> GetKey_hash ks h1 = Raise (KeyNotFoundError h1) -> GetKey_hash ks h2 = Raise (KeyNotFoundError h2) -> h1 <> h2 ->
  exists ks', turns (ks, map running [Change (OpAdd [d1] s1 (Some size1)); Change (OpAdd [d2] s2 (Some size2))]) (ks', [Finished (Ok (inl tt)); Finished (Ok (inl tt))]) /\
    ring_of ks' (max_version ks + 1) = Some (s2, k2) /\ (forall n s k, ring_of ks' n = Some (s, k) -> k <> k1) /\ GetKey_hash ks' h1 = Ok k1.
Proof.
  intros ks d1 d2 s1 s2 size1 size2 k1 k2 h1 h2 R S1 S2 Z1 Z2 G1 G2 K1 K2 U1 U2 NH. pose proof (reached_inv ks R) as I. set (n := max_version ks + 1).
  unfold GetKey_hash in U1, U2. destruct (assoc str_eqb (ks_hkeys ks) h1) eqn:V1; [discriminate|]. destruct (assoc str_eqb (ks_hkeys ks) h2) eqn:V2; [discriminate|]. clear U1 U2.
  assert (NN : assoc Z.eqb (ks_mvers ks) n = None).
  { destruct (assoc Z.eqb (ks_mvers ks) n) as [o|] eqn:E; [|reflexivity]. destruct (inv_mvers ks I n o (assoc_In Z.eqb_eq E)) as [HI EN]. pose proof (max_version_ge ks o HI). lia. }
  set (oa := length (ks_objs ks)). set (ka := set_objs ks (ks_objs ks ++ [MkVersion n s1 false])). set (ob := length (ks_objs ka)).
  assert (OB : ob = S oa) by (unfold ob, ka; cbn [set_objs ks_objs]; rewrite app_length; cbn [length]; unfold oa; lia).
  assert (MX : max_version ka = max_version ks).
  { unfold max_version, ks_versions. change (ks_vkeys ka) with (ks_vkeys ks). assert (G : forall l, (forall o, In o l -> (o < length (ks_objs ks))%nat) -> forall m,
      fold_left (fun m o => if m <? v_num (deref (ks_objs ka) o) then v_num (deref (ks_objs ka) o) else m) l m = fold_left (fun m o => if m <? v_num (deref (ks_objs ks) o) then v_num (deref (ks_objs ks) o) else m) l m).
    { induction l as [|o l IH]; intros HL m; cbn [fold_left]; [reflexivity|]. assert (DK : deref (ks_objs ka) o = deref (ks_objs ks) o) by (apply deref_app_l, HL; left; reflexivity). rewrite DK. apply IH. intros q Hq. apply HL. right. exact Hq. }
    apply G. apply (inv_range ks I). }
  set (kb := set_objs ka (ks_objs ka ++ [MkVersion n s2 false])).
  set (kc := set_mvers (set_keys kb (ks_vkeys ks ++ [(ob, k2)]) (dict_set str_eqb (ks_hkeys ks) h2 k2)) (ks_mvers ks ++ [(n, ob)])).
  set (ks' := set_keys kc (ks_vkeys kc ++ [(oa, k1)]) (dict_set str_eqb (ks_hkeys kc) h1 k1)). exists ks'.
  assert (SZ : forall z, In z (sizes (ks_type ks)) -> IsValidSize (ks_type ks) z = true). { intros z Hz. unfold IsValidSize. apply existsb_exists. exists z. split; [exact Hz | apply Z.eqb_refl]. }
  assert (NP : forall s, s <> PRIMARY -> status_eqb s PRIMARY = false) by (intros []; cbn; congruence).
  assert (VA : assoc Nat.eqb (ks_vkeys ks) ob = None).
  { destruct (assoc Nat.eqb (ks_vkeys ks) ob) as [y|] eqn:E; [|reflexivity]. apply (assoc_In Nat.eqb_eq) in E. apply (in_map fst) in E. pose proof (inv_range ks I _ E) as L. cbn [fst] in L. unfold oa in OB. lia. }
  split; [|split; [|split]].
  - cbn [map running changing]. set (T2 := tmap inl (AddVersion_t [d2] s2 (Some size2))). unfold AddVersion_t, read. cbn [tmap]. eapply first; [reflexivity|]. rewrite (SZ _ Z1). cbn [negb tmap].
    eapply first; [reflexivity|]. fold n. fold ka. fold oa. eapply second_alone.
    + unfold T2. rewrite alone_tmap. unfold AddVersion_t, read. cbn [alone]. change (ks_type ka) with (ks_type ks). rewrite (SZ _ Z2). cbn [negb alone]. rewrite MX. fold n. fold kb. fold ob. unfold AddVersion_rest. rewrite (NP _ S2). rewrite alone_gen.
      change (ks_hkeys kb) with (ks_hkeys ks). cbn [gen_unique]. rewrite G2. cbn [bind]. rewrite K2. cbn [bind]. rewrite V2. rewrite alone_AddKey. cbv zeta. change (ks_mvers kb) with (ks_mvers ks). rewrite NN. reflexivity.
    + eapply first_alone; [|apply TurnsNone]. rewrite alone_tmap. unfold AddVersion_rest. rewrite (NP _ S1). rewrite alone_gen. cbn [gen_unique]. rewrite G1. cbn [bind]. rewrite K1. cbn [bind].
      match goal with |- context [assoc str_eqb (ks_hkeys ?k) h1] => change (ks_hkeys k) with (dict_set str_eqb (ks_hkeys ks) h2 k2) end. rewrite (assoc_set _ str_eqb_eq).
      destruct (str_eqb h2 h1) eqn:E; [apply str_eqb_eq in E; congruence|]. rewrite V1. rewrite alone_AddKey. cbv zeta.
      match goal with |- context [assoc Z.eqb (ks_mvers ?k) n] => change (ks_mvers k) with (ks_mvers ks ++ [(n, ob)]) end. rewrite assoc_app, NN. cbn [assoc]. rewrite Z.eqb_refl. reflexivity.
  - unfold ring_of. change (ks_mvers ks') with (ks_mvers ks ++ [(n, ob)]). rewrite assoc_app, NN. cbn [assoc]. rewrite Z.eqb_refl. change (ks_vkeys ks') with ((ks_vkeys ks ++ [(ob, k2)]) ++ [(oa, k1)]). rewrite !assoc_app, VA. cbn [assoc]. rewrite Nat.eqb_refl.
    change (ks_objs ks') with (ks_objs ka ++ [MkVersion n s2 false]). unfold ob. rewrite deref_app_new. reflexivity.
  - intros m s k H E. subst k. unfold ring_of in H. change (ks_mvers ks') with (ks_mvers ks ++ [(n, ob)]) in H. rewrite assoc_app in H. change (ks_vkeys ks') with ((ks_vkeys ks ++ [(ob, k2)]) ++ [(oa, k1)]) in H.
    destruct (assoc Z.eqb (ks_mvers ks) m) as [o|] eqn:E.
    + destruct (inv_mvers ks I m o (assoc_In Z.eqb_eq E)) as [HI _]. rewrite !assoc_app in H. destruct (assoc Nat.eqb (ks_vkeys ks) o) as [y|] eqn:EK.
      * apply Some_inj, pair_inj in H as [_ H]. subst y. destruct (inv_hash1 ks I o k1 (assoc_In Nat.eqb_eq EK)) as (h & k' & Q1 & Q2). rewrite K1 in Q1. apply Ok_inj in Q1. subst h. congruence.
      * apply in_map_iff in HI as ([o' y] & <- & HI). cbn [fst] in EK. assert (X : assoc Nat.eqb (ks_vkeys ks) o' = Some y) by (apply (assoc_NoDup Nat.eqb_eq); [apply (inv_vnodup ks I) | exact HI]). congruence.
    + cbn [assoc] in H. destruct (n =? m); [|discriminate]. rewrite !assoc_app, VA in H. cbn [assoc] in H. rewrite Nat.eqb_refl in H. apply Some_inj, pair_inj in H as [_ H]. subst k2. congruence.
  - unfold GetKey_hash. change (ks_hkeys ks') with (dict_set str_eqb (dict_set str_eqb (ks_hkeys ks) h2 k2) h1 k1). rewrite (assoc_set _ str_eqb_eq). rewrite (proj2 (str_eqb_eq h1 h1) eq_refl). reflexivity.
Qed.
Print Assumptions C90_two_adds_refuted.

(** ** A thread signs while another one promotes *)

(** [Sign] can return the identifier of one key with the signature of another one. *)
Theorem C90_sign_mixes : forall e ks n1 n2 k1 k2 m d h1 p s2 out, reached ks -> ring_of ks n1 = Some (PRIMARY, k1) -> ring_of ks n2 = Some (ACTIVE, k2) ->
  key_header k1 = Ok h1 -> PackByteArray None = Ok p -> key_Sign e k2 (m ++ p ++ VERSION_BYTE) = Ok s2 -> apply_codec d (h1 ++ s2) = Ok out ->
  exists ks', turns (ks, map running [Use (CSign e m d); Change (OpPromote n2)]) (ks', [Finished (Ok (inr (AText out))); Finished (Ok (inl tt))]) /\
    ks' = fst (step ks (OpPromote n2)).
Proof.
  intros e ks n1 n2 k1 k2 m d h1 p s2 out R H1 H2 HH HP HS HO. pose proof (reached_inv ks R) as I. destruct (ring_in ks n1 _ _ I H1) as (o1 & A1 & B1 & C1 & D1 & M1). destruct (ring_in ks n2 _ _ I H2) as (o2 & A2 & B2 & C2 & D2 & M2).
  assert (EP : ks_primary ks = Some o1). { apply (inv_prim1 ks I); [|exact C1]. apply (inv_mvers ks I n1 o1 (assoc_In Z.eqb_eq A1)). }
  destruct (C90_alone ks R) as [AL _]. specialize (AL (OpPromote n2)). set (ks' := fst (step ks (OpPromote n2))). exists ks'. split; [|reflexivity].
  assert (ST : step ks (OpPromote n2) = (set_primary (set_status (set_status ks o2 PRIMARY) o1 ACTIVE) (Some o2), Ok tt)).
  { cbn [step]. unfold Promote, GetVersion. rewrite A2. rewrite C2. cbn [status_eqb set_status set_objs ks_primary]. rewrite EP. reflexivity. }
  cbn [map running calling]. set (T2 := tmap inl (changing (OpPromote n2))). unfold Sign_t, with_primary, read. cbn [tmap]. eapply first; [reflexivity|]. rewrite EP. cbn [tmap]. eapply first; [reflexivity|].
  unfold GetKey_version at 1. rewrite B1, HH. eapply second_alone.
  - unfold T2. rewrite alone_tmap, AL, ST. reflexivity.
  - unfold InternalSign_t, with_primary, read. cbn [tmap]. eapply first; [reflexivity|]. cbn [set_primary ks_primary tmap]. eapply first; [reflexivity|]. unfold GetKey_version. cbn [set_primary set_status set_objs ks_vkeys]. rewrite B2, HP. cbn [bind]. rewrite HS. cbn [bind]. rewrite HO. cbn [tmap res_map].
    unfold ks'. rewrite ST. apply TurnsNone.
Qed.
Print Assumptions C90_sign_mixes.

(** For the keys of testdata/hmac no class accepts it, before or after. *)
Theorem C90_sign_refuted : exists ks n m s ks', reached ks /\
  turns (ks, map running [Use (CSign zero_env m None); Change (OpPromote n)]) (ks', [Finished (Ok (inr (AText s))); Finished (Ok (inl tt))]) /\
  Verify ks m s None = Ok false /\ Verify ks' m s None = Ok false.
Proof.
  assert (R1 : exists h, ring_of hmac_set 1 = Some (ACTIVE, KHmac h)) by (eexists; reflexivity). destruct R1 as (a1 & R1).
  assert (R2 : exists h, ring_of hmac_set 2 = Some (PRIMARY, KHmac h)) by (eexists; reflexivity). destruct R2 as (a2 & R2).
  assert (HH : exists h, key_header (KHmac a2) = Ok h /\ exists s, key_Sign zero_env (KHmac a1) (bs "pay 1" ++ [] ++ VERSION_BYTE) = Ok s /\ Verify hmac_set (bs "pay 1") (h ++ s) None = Ok false).
  { apply Some_inj, pair_inj in R1 as [_ R1]. apply Some_inj, pair_inj in R2 as [_ R2]. assert (E : match key_header (KHmac a2), key_Sign zero_env (KHmac a1) (bs "pay 1" ++ [] ++ VERSION_BYTE) with Ok h, Ok s => Verify hmac_set (bs "pay 1") (h ++ s) None = Ok false | _, _ => False end)
      by (rewrite <- R1, <- R2; vm_compute; reflexivity).
    destruct (key_header (KHmac a2)) as [h|]; [|contradiction]. destruct (key_Sign _ _ _) as [s|]; [|contradiction]. exists h. split; [reflexivity|]. exists s. split; [reflexivity | exact E]. }
  destruct HH as (h & HH & s & HS & HV).
  destruct (C90_sign_mixes zero_env hmac_set 2 1 (KHmac a2) (KHmac a1) (bs "pay 1") None h [] s (h ++ s) hmac_set_reached R2 R1 HH eq_refl HS eq_refl) as (ks' & T & E).
  exists hmac_set, 1, (bs "pay 1"), (h ++ s), ks'. split; [exact hmac_set_reached|]. split; [exact T|]. split; [exact HV|].
  pose proof (C90_history hmac_set _ ks' _ hmac_set_reached T) as (_ & _ & H & _). apply H. exact HV.
Qed.
Print Assumptions C90_sign_refuted.

(** The hypotheses of the theorems of C90 hold for sets that exist. *)
Example C90_case :
  (exists k1 k2, ring_of hmac_set 1 = Some (ACTIVE, k1) /\ ring_of hmac_set 2 = Some (PRIMARY, k2)) /\
  (let both := fst (step hmac_set (OpDemote 2)) in reached both /\ text_ok (ks_name both) /\ exists k1 k2, ring_of both 1 = Some (ACTIVE, k1) /\ ring_of both 2 = Some (ACTIVE, k2)) /\
  (exists k1 k2 h1 h2, In 256 (sizes (ks_type hmac_set)) /\ GenKey (zero_draw x2a) (ks_type hmac_set) (Some 256) = Ok k1 /\ GenKey (zero_draw x2b) (ks_type hmac_set) (Some 256) = Ok k2 /\
     key_hash_id k1 = Ok h1 /\ key_hash_id k2 = Ok h2 /\ GetKey_hash hmac_set h1 = Raise (KeyNotFoundError h1) /\ GetKey_hash hmac_set h2 = Raise (KeyNotFoundError h2) /\ h1 <> h2) /\
  (exists s, gives hmac_set (CSign zero_env (bs "pay 1") None) = Ok s /\ settled [Use (CSign zero_env (bs "pay 1") None); Change (OpAdd [zero_draw x2a] ACTIVE None); Change (OpRevoke 1)] (CSign zero_env (bs "pay 1") None) s).
Proof.
  split; [do 2 eexists; split; reflexivity|]. split; [|split].
  - cbv zeta. split; [exists GenericKeyczar, hmac_reader, hmac_set, [OpDemote 2]; split; [exact hmac_set_opens | reflexivity]|]. split; [|do 2 eexists; split; reflexivity].
    unfold text_ok. repeat constructor; vm_compute; intuition congruence.
  - assert (E : match GenKey (zero_draw x2a) (ks_type hmac_set) (Some 256), GenKey (zero_draw x2b) (ks_type hmac_set) (Some 256) with
      | Ok k1, Ok k2 => match key_hash_id k1, key_hash_id k2 with Ok h1, Ok h2 =>
          (str_eqb h1 h2, GetKey_hash hmac_set h1, GetKey_hash hmac_set h2) = (false, Raise (KeyNotFoundError h1), Raise (KeyNotFoundError h2)) | _, _ => False end | _, _ => False end) by (vm_compute; reflexivity).
    destruct (GenKey (zero_draw x2a) (ks_type hmac_set) (Some 256)) as [k1|]; [|contradiction]. destruct (GenKey (zero_draw x2b) (ks_type hmac_set) (Some 256)) as [k2|]; [|contradiction].
    destruct (key_hash_id k1) as [h1|] eqn:K1; [|contradiction]. destruct (key_hash_id k2) as [h2|] eqn:K2; [|contradiction]. apply pair_inj in E as [E E3]. apply pair_inj in E as [E1 E2].
    exists k1, k2, h1, h2. split; [cbn; tauto|]. repeat (split; [assumption || reflexivity|]). intros ->. rewrite (proj2 (str_eqb_eq h2 h2) eq_refl) in E1. discriminate.
  - assert (E : match Sign zero_env hmac_set (bs "pay 1") None with Ok _ => True | Raise _ => False end) by (vm_compute; exact I).
    cbn [gives]. destruct (Sign zero_env hmac_set (bs "pay 1") None) as [s|]; [|contradiction]. exists (AText s). split; [reflexivity|]. intros o [H|[H|[H|[]]]]; [discriminate | |]; injection H as <-; cbn [steady]; [discriminate | exact I].
Qed.
