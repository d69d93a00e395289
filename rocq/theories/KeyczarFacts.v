(** * KeyczarFacts: lemmas about key sets. *)
From Coq Require Import Strings.String.
From Coq Require Import List ZArith NArith Bool Lia ZifyBool ZifyNat ZifyN Permutation.
From Coq.Init Require Import Byte.
From Verif Require Import PyBase PyFacts Base64 Base64Facts Util Json JsonFacts KeyInfo SymKeys AsymKeys Keys KeysFacts
  KeyData Keyczar KeyRing.
Import ListNotations.
Local Open Scope Z_scope.
Ltac Zify.zify_post_hook ::= idtac.

(** ** Dictionaries *)

Section Dict.
  Context {A B : Type} (eqb : A -> A -> bool) (eqb_eq : forall a b, eqb a b = true <-> a = b).

  Lemma assoc_In (l : list (A * B)) k v : assoc eqb l k = Some v -> In (k, v) l.
  Proof.
    induction l as [|[k' w] l IH]; cbn [assoc]; [discriminate|].
    destruct (eqb k' k) eqn:E.
    - intros H. apply Some_inj in H as <-. apply eqb_eq in E as <-. left. reflexivity.
    - intros H. right. apply IH. assumption.
  Qed.

  Lemma eqb_neq a b : a <> b -> eqb a b = false.
  Proof. intros H. destruct (eqb a b) eqn:E; [apply eqb_eq in E; contradiction | reflexivity]. Qed.

  Lemma assoc_None (l : list (A * B)) k : assoc eqb l k = None <-> ~ In k (map fst l).
  Proof.
    induction l as [|[k' w] l IH]; cbn [assoc map fst In]; [tauto|].
    destruct (eqb k' k) eqn:E.
    - apply eqb_eq in E as <-. split; [discriminate | tauto].
    - rewrite IH. split; [|tauto]. intros H [C|C]; [|tauto]. subst k'.
      assert (eqb k k = true) by (apply eqb_eq; reflexivity). congruence.
  Qed.

  Lemma assoc_NoDup (l : list (A * B)) k v : NoDup (map fst l) -> In (k, v) l -> assoc eqb l k = Some v.
  Proof.
    induction l as [|[k' w] l IH]; intros ND HI; [destruct HI|].
    cbn [map fst] in ND. inversion ND as [|? ? N1 N2]; subst. cbn [assoc]. destruct HI as [E|HI].
    - apply pair_inj in E as [<- <-]. rewrite (proj2 (eqb_eq k' k') eq_refl). reflexivity.
    - rewrite eqb_neq; [apply IH; assumption|]. intros ->. apply N1. apply (in_map fst) in HI. exact HI.
  Qed.

  Lemma assoc_app (l l' : list (A * B)) k :
    assoc eqb (l ++ l') k = match assoc eqb l k with Some v => Some v | None => assoc eqb l' k end.
  Proof.
    induction l as [|[k' w] l IH]; cbn [app assoc]; [reflexivity|].
    destruct (eqb k' k); [reflexivity | exact IH].
  Qed.

  Lemma assoc_set (l : list (A * B)) k v k' :
    assoc eqb (dict_set eqb l k v) k' = if eqb k k' then Some v else assoc eqb l k'.
  Proof.
    induction l as [|[a w] l IH]; cbn [dict_set assoc]; [reflexivity|].
    destruct (eqb a k) eqn:E.
    - apply eqb_eq in E as ->. cbn [assoc]. destruct (eqb k k'); reflexivity.
    - cbn [assoc]. rewrite IH. destruct (eqb a k') eqn:E2; [|reflexivity].
      apply eqb_eq in E2 as <-. rewrite eqb_neq; [reflexivity|]. intros ->.
      assert (eqb a a = true) by (apply eqb_eq; reflexivity). congruence.
  Qed.

  Lemma assoc_pop (l : list (A * B)) k k' :
    assoc eqb (dict_pop eqb l k) k' = if eqb k k' then None else assoc eqb l k'.
  Proof.
    induction l as [|[a w] l IH]; [cbn; destruct (eqb k k'); reflexivity|].
    unfold dict_pop in *. cbn [filter fst assoc]. destruct (eqb a k) eqn:E; cbn [negb].
    - apply eqb_eq in E as ->. rewrite IH. destruct (eqb k k'); reflexivity.
    - cbn [assoc]. rewrite IH. destruct (eqb a k') eqn:E2; [|reflexivity].
      apply eqb_eq in E2 as <-. rewrite eqb_neq; [reflexivity|]. intros ->.
      assert (eqb a a = true) by (apply eqb_eq; reflexivity). congruence.
  Qed.

  Lemma In_dict_pop (l : list (A * B)) k p : In p (dict_pop eqb l k) -> In p l /\ fst p <> k.
  Proof.
    unfold dict_pop. intros H. apply filter_In in H as [H E]. split; [assumption|]. intros <-.
    rewrite (proj2 (eqb_eq _ _) eq_refl) in E. discriminate.
  Qed.

  Lemma NoDup_dict_pop (l : list (A * B)) k : NoDup (map fst l) -> NoDup (map fst (dict_pop eqb l k)).
  Proof.
    unfold dict_pop. induction l as [|[a w] l IH]; intros H; [constructor|]. cbn [map fst] in H.
    inversion H as [|? ? N1 N2]; subst. cbn [filter fst]. destruct (negb (eqb a k)); [|apply IH; assumption].
    cbn [map fst]. constructor; [|apply IH; assumption]. intros C. apply N1.
    apply in_map_iff in C as ([a' w'] & E & C). cbn in E. subst a'. apply filter_In in C as [C _].
    apply (in_map fst) in C. exact C.
  Qed.
End Dict.

Arguments assoc_In {A B eqb} eqb_eq {l k v}.
Arguments assoc_None {A B eqb} eqb_eq {l k}.
Arguments assoc_NoDup {A B eqb} eqb_eq {l k v}.

(** ** Version objects *)

Lemma deref_app_l objs l o : (o < length objs)%nat -> deref (objs ++ l) o = deref objs o.
Proof. intros H. unfold deref. apply app_nth1. assumption. Qed.
Lemma deref_app_new objs v : deref (objs ++ [v]) (length objs) = v.
Proof. unfold deref. rewrite app_nth2 by lia. rewrite Nat.sub_diag. reflexivity. Qed.

Lemma length_upd l o f : length (upd_nth l o f) = length l.
Proof. revert o. induction l as [|v l IH]; intros [|o]; cbn [upd_nth length]; auto. Qed.
Lemma deref_upd_eq l o f : (o < length l)%nat -> deref (upd_nth l o f) o = f (deref l o).
Proof.
  revert o. induction l as [|v l IH]; intros [|o] H; cbn [length] in H; try lia; [reflexivity|].
  cbn [upd_nth]. unfold deref in *. cbn [nth]. apply IH. lia.
Qed.
Lemma deref_upd_neq l o o' f : o <> o' -> deref (upd_nth l o f) o' = deref l o'.
Proof.
  revert o o'. induction l as [|v l IH]; intros [|o] [|o'] H; cbn [upd_nth]; try reflexivity; [contradiction|].
  unfold deref in *. cbn [nth]. apply IH. lia.
Qed.
Lemma deref_status l o o' s : (o < length l)%nat ->
  v_status (deref (upd_nth l o (fun v => with_status v s)) o') = if Nat.eqb o o' then s else v_status (deref l o').
Proof.
  intros H. destruct (Nat.eqb o o') eqn:E.
  - apply Nat.eqb_eq in E as <-. rewrite deref_upd_eq by assumption. reflexivity.
  - apply Nat.eqb_neq in E. rewrite deref_upd_neq by assumption. reflexivity.
Qed.
Lemma deref_num l o o' s : v_num (deref (upd_nth l o (fun v => with_status v s)) o') = v_num (deref l o').
Proof.
  destruct (Nat.eq_dec o o') as [<-|N]; [|rewrite deref_upd_neq by assumption; reflexivity].
  destruct (Nat.lt_ge_cases o (length l)) as [H|H].
  - rewrite deref_upd_eq by assumption. reflexivity.
  - unfold deref. rewrite !nth_overflow; [reflexivity | assumption | rewrite length_upd; assumption].
Qed.

Lemma status_eqb_eq a b : status_eqb a b = true <-> a = b.
Proof. destruct a, b; cbn; split; congruence. Qed.

(** ** The invariant of key sets *)

Record inv (ks : keyset) : Prop := MkInv {
  inv_range : forall o, In o (ks_versions ks) -> (o < length (ks_objs ks))%nat;
  inv_nums : NoDup (map (fun o => v_num (deref (ks_objs ks) o)) (ks_versions ks));
  inv_mkeys : NoDup (map fst (ks_mvers ks));
  inv_mvers : forall n o, In (n, o) (ks_mvers ks) -> In o (ks_versions ks) /\ v_num (deref (ks_objs ks) o) = n;
  inv_prim1 : forall o, In o (ks_versions ks) -> v_status (deref (ks_objs ks) o) = PRIMARY -> ks_primary ks = Some o;
  inv_prim2 : forall o, ks_primary ks = Some o ->
    (o < length (ks_objs ks))%nat /\ v_status (deref (ks_objs ks) o) = PRIMARY /\
    (In o (ks_versions ks) -> In o (map snd (ks_mvers ks)));
  inv_type : forall o k, In (o, k) (ks_vkeys ks) -> key_type k = ks_type ks;
  inv_hash1 : forall o k, In (o, k) (ks_vkeys ks) -> exists h k', key_hash_id k = Ok h /\ assoc str_eqb (ks_hkeys ks) h = Some k';
  inv_hash2 : forall h k, assoc str_eqb (ks_hkeys ks) h = Some k -> key_hash_id k = Ok h /\ exists o, In (o, k) (ks_vkeys ks) }.

Lemma inv_vnodup ks : inv ks -> NoDup (ks_versions ks).
Proof. intros I. apply (NoDup_map_inv _ _ (inv_nums ks I)). Qed.

(** Two versions in the set with the same number are the same object. *)
Lemma num_inj ks : inv ks -> forall o o', In o (ks_versions ks) -> In o' (ks_versions ks) ->
  v_num (deref (ks_objs ks) o) = v_num (deref (ks_objs ks) o') -> o = o'.
Proof.
  intros I. pose proof (inv_nums ks I) as H. induction (ks_versions ks) as [|a l IH]; intros o o' Ho Ho' E; [destruct Ho|].
  cbn [map] in H. inversion H as [|? ? N1 N2]; subst. destruct Ho as [<-|Ho], Ho' as [<-|Ho'].
  - reflexivity.
  - exfalso. apply N1. rewrite E. apply (in_map (fun o => v_num (deref (ks_objs ks) o))). assumption.
  - exfalso. apply N1. rewrite <- E. apply (in_map (fun o => v_num (deref (ks_objs ks) o))). assumption.
  - apply IH; assumption.
Qed.

(** What a user sees of a version number: its status and key. *)
Definition ring_of (ks : keyset) : ring := fun n =>
  match assoc Z.eqb (ks_mvers ks) n with
  | Some o =>
      match assoc Nat.eqb (ks_vkeys ks) o with
      | Some k => Some (v_status (deref (ks_objs ks) o), k)
      | None => None
      end
  | None => None
  end.

Lemma version_has_key ks o : In o (ks_versions ks) -> exists k, assoc Nat.eqb (ks_vkeys ks) o = Some k.
Proof.
  intros H. destruct (assoc Nat.eqb (ks_vkeys ks) o) as [k|] eqn:E; [eexists; reflexivity|].
  apply (assoc_None Nat.eqb_eq) in E. contradiction.
Qed.

(** ** Operations *)

Inductive op :=
| OpAdd (ds : list draw) (s : status) (size : option Z)
| OpPromote (n : Z)
| OpDemote (n : Z)
| OpRevoke (n : Z).

Definition step (ks : keyset) (o : op) : keyset * res unit :=
  match o with
  | OpAdd ds s size => AddVersion ks ds s size
  | OpPromote n => Promote ks n
  | OpDemote n => Demote ks n
  | OpRevoke n => Revoke ks n
  end.

(** The state after a sequence of operations, some of which may have raised. *)
Definition run (ks : keyset) (ops : list op) : keyset := fold_left (fun ks o => fst (step ks o)) ops ks.

Lemma max_version_ge ks o : In o (ks_versions ks) -> v_num (deref (ks_objs ks) o) <= max_version ks.
Proof.
  unfold max_version. intros H.
  assert (G : forall l m, m <= fold_left (fun m o => if m <? v_num (deref (ks_objs ks) o) then v_num (deref (ks_objs ks) o) else m) l m).
  { induction l as [|a l IH]; intros m; cbn [fold_left]; [lia|].
    pose proof (IH (if m <? v_num (deref (ks_objs ks) a) then v_num (deref (ks_objs ks) a) else m)).
    destruct (m <? v_num (deref (ks_objs ks) a)) eqn:E; lia. }
  revert H. generalize 0 as m. induction (ks_versions ks) as [|a l IH]; intros m H; [destruct H|]; destruct H as [<-|H]; cbn [fold_left].
  - pose proof (G l (if m <? v_num (deref (ks_objs ks) a) then v_num (deref (ks_objs ks) a) else m)) as G'.
    destruct (m <? v_num (deref (ks_objs ks) a)) eqn:E; lia.
  - apply IH. assumption.
Qed.

Lemma max_version_nonneg ks : 0 <= max_version ks.
Proof.
  unfold max_version. generalize (ks_versions ks) as l. assert (G : forall l m, m <= fold_left (fun m o => if m <? v_num (deref (ks_objs ks) o) then v_num (deref (ks_objs ks) o) else m) l m).
  { induction l as [|a l IH]; intros m; cbn [fold_left]; [lia|].
    pose proof (IH (if m <? v_num (deref (ks_objs ks) a) then v_num (deref (ks_objs ks) a) else m)).
    destruct (m <? v_num (deref (ks_objs ks) a)) eqn:E; lia. }
  intros l. apply G.
Qed.

Lemma gen_unique_ok hk t size ds k h : gen_unique hk t size ds = Ok (k, h) ->
  key_hash_id k = Ok h /\ assoc str_eqb hk h = None /\ exists d, In d ds /\ GenKey d t (Some size) = Ok k.
Proof.
  induction ds as [|d ds IH]; cbn [gen_unique]; [discriminate|]. intros H.
  apply bind_Ok in H as (k1 & E1 & H). apply bind_Ok in H as (h1 & E2 & H).
  destruct (assoc str_eqb hk h1) as [k2|] eqn:EA.
  - destruct (IH H) as (A1 & A2 & d' & A3 & A4). split; [assumption|]. split; [assumption|]. exists d'. split; [right; assumption | assumption].
  - apply Ok_inj in H. apply pair_inj in H as [<- <-]. split; [assumption|]. split; [assumption|]. exists d. split; [left; reflexivity | assumption].
Qed.

Lemma GenKey_type d t size k : GenKey d t size = Ok k -> key_type k = t.
Proof.
  unfold GenKey. destruct (negb _); [discriminate|]. intros H. destruct t; try discriminate; try (apply Ok_inj in H as <-; reflexivity).
Qed.

(** Changing the status of one version object. *)
Lemma inv_set_status ks o s : inv ks -> (o < length (ks_objs ks))%nat -> s <> PRIMARY -> ks_primary ks <> Some o ->
  inv (set_status ks o s).
Proof.
  intros I Ho Hs Hp. destruct I. unfold set_status, set_objs.
  constructor; cbn [ks_versions ks_objs ks_mvers ks_primary ks_vkeys ks_hkeys ks_type]; unfold ks_versions in *; cbn [ks_vkeys].
  - intros o' H. rewrite length_upd. auto.
  - erewrite map_ext; [exact inv_nums0|]. intros a. apply deref_num.
  - assumption.
  - intros n o' H. rewrite deref_num. auto.
  - intros o' H. rewrite deref_status by assumption. destruct (Nat.eqb o o'); [contradiction | auto].
  - intros o' H. rewrite length_upd, deref_status by assumption. destruct (Nat.eqb o o') eqn:E; [|auto].
    apply Nat.eqb_eq in E as <-. contradiction.
  - assumption.
  - assumption.
  - assumption.
Qed.

(** Demoting the primary version object [p] and making nothing primary. *)
Lemma inv_no_primary ks p s : inv ks -> ks_primary ks = Some p -> s <> PRIMARY ->
  inv (set_primary (set_status ks p s) None).
Proof.
  intros I Hp Hs. pose proof (inv_prim2 ks I p Hp) as (Hr & _ & _). destruct I. unfold set_primary, set_status, set_objs.
  constructor; cbn [ks_versions ks_objs ks_mvers ks_primary ks_vkeys ks_hkeys ks_type]; unfold ks_versions in *; cbn [ks_vkeys].
  - intros o' H. rewrite length_upd. auto.
  - erewrite map_ext; [exact inv_nums0|]. intros a. apply deref_num.
  - assumption.
  - intros n o' H. rewrite deref_num. auto.
  - intros o' H. rewrite deref_status by assumption. destruct (Nat.eqb p o') eqn:E; [contradiction|].
    intros HP. specialize (inv_prim3 o' H HP). rewrite Hp in inv_prim3. apply Some_inj in inv_prim3.
    apply Nat.eqb_neq in E. contradiction.
  - discriminate.
  - assumption.
  - assumption.
  - assumption.
Qed.

(** The primary version loses its status, if there is one. *)
Definition drop_primary (ks : keyset) : keyset :=
  match ks_primary ks with
  | Some p => set_primary (set_status ks p ACTIVE) None
  | None => ks
  end.

Lemma inv_drop ks : inv ks -> inv (drop_primary ks).
Proof.
  intros I. unfold drop_primary. destruct (ks_primary ks) as [p|] eqn:E; [|assumption].
  apply inv_no_primary; [assumption | assumption | discriminate].
Qed.

(** Making a version of the metadata primary when nothing is. *)
Lemma inv_make_primary ks o : inv ks -> ks_primary ks = None -> In o (map snd (ks_mvers ks)) ->
  inv (set_primary (set_status ks o PRIMARY) (Some o)).
Proof.
  intros I Hp Ho. assert (Hv : In o (ks_versions ks)).
  { apply in_map_iff in Ho as ([n o'] & E & H). cbn in E. subst o'. apply (inv_mvers ks I n o H). }
  pose proof (inv_range ks I o Hv) as Hr. destruct I. unfold set_primary, set_status, set_objs.
  constructor; cbn [ks_versions ks_objs ks_mvers ks_primary ks_vkeys ks_hkeys ks_type]; unfold ks_versions in *; cbn [ks_vkeys].
  - intros o' H. rewrite length_upd. auto.
  - erewrite map_ext; [exact inv_nums0|]. intros a. apply deref_num.
  - assumption.
  - intros n o' H. rewrite deref_num. auto.
  - intros o' H. rewrite deref_status by assumption. destruct (Nat.eqb o o') eqn:E; [apply Nat.eqb_eq in E as <-; reflexivity|].
    intros HP. specialize (inv_prim3 o' H HP). congruence.
  - intros o' H. apply Some_inj in H as <-. rewrite length_upd, deref_status by assumption. rewrite Nat.eqb_refl. auto.
  - assumption.
  - assumption.
  - assumption.
Qed.

Lemma upd_comm l o o' f g : o <> o' -> upd_nth (upd_nth l o f) o' g = upd_nth (upd_nth l o' g) o f.
Proof.
  revert o o'. induction l as [|v l IH]; intros [|o] [|o'] H; cbn [upd_nth]; try reflexivity; [contradiction|].
  f_equal. apply IH. lia.
Qed.

(** The state change of [Promote] on an ACTIVE version. *)
Lemma promote_active_eq ks o : ks_primary ks <> Some o ->
  set_primary (match ks_primary ks with Some p => set_status (set_status ks o PRIMARY) p ACTIVE | None => set_status ks o PRIMARY end) (Some o)
  = set_primary (set_status (drop_primary ks) o PRIMARY) (Some o).
Proof.
  intros H. unfold drop_primary. destruct (ks_primary ks) as [p|] eqn:E; [|reflexivity].
  unfold set_primary, set_status, set_objs. cbn. rewrite upd_comm by congruence. reflexivity.
Qed.

(** ** Adding a version object that is in no dictionary *)
Lemma inv_new_obj ks v : inv ks -> inv (set_objs ks (ks_objs ks ++ [v])).
Proof.
  intros I. destruct I. unfold set_objs.
  constructor; cbn [ks_versions ks_objs ks_mvers ks_primary ks_vkeys ks_hkeys ks_type]; unfold ks_versions in *; cbn [ks_vkeys].
  - intros o' H. rewrite app_length. apply inv_range0 in H. lia.
  - erewrite map_ext_in; [exact inv_nums0|]. intros a Ha. cbn beta. rewrite deref_app_l by auto. reflexivity.
  - assumption.
  - intros n o' H. destruct (inv_mvers0 n o' H) as [H1 H2]. split; [assumption|]. rewrite deref_app_l by auto. assumption.
  - intros o' H. rewrite deref_app_l by auto. auto.
  - intros o' H. destruct (inv_prim4 o' H) as (H1 & H2 & H3). rewrite app_length, deref_app_l by assumption.
    split; [lia|]. split; assumption.
  - assumption.
  - assumption.
  - assumption.
Qed.

(** ... and is primary without being in the set: what a failed AddVersion(PRIMARY) leaves. *)
Lemma inv_dangling ks n b : inv ks -> ks_primary ks = None ->
  inv (set_primary (set_objs ks (ks_objs ks ++ [MkVersion n PRIMARY b])) (Some (length (ks_objs ks)))).
Proof.
  intros I Hp. pose proof (inv_new_obj ks (MkVersion n PRIMARY b) I) as J. destruct J.
  unfold set_primary in *. unfold set_objs in *. cbn in *.
  constructor; cbn [ks_versions ks_objs ks_mvers ks_primary ks_vkeys ks_hkeys ks_type]; unfold ks_versions in *; cbn [ks_vkeys] in *; auto.
  - intros o H HP. specialize (inv_prim3 o H HP). congruence.
  - intros o H. apply Some_inj in H as <-. rewrite deref_app_new, app_length. cbn [length v_status].
    split; [lia|]. split; [reflexivity|]. intros C. apply (inv_range ks I) in C. lia.
Qed.

Lemma add_prep_eq ks v : (match ks_primary ks with Some p => set_status (set_objs ks (ks_objs ks ++ [v])) p ACTIVE | None => set_objs ks (ks_objs ks ++ [v]) end)
  = (match ks_primary ks with Some p => set_objs ks (upd_nth (ks_objs ks ++ [v]) p (fun v => with_status v ACTIVE)) | None => set_objs ks (ks_objs ks ++ [v]) end).
Proof. destruct (ks_primary ks); reflexivity. Qed.

Lemma upd_app_l l l' o f : (o < length l)%nat -> upd_nth (l ++ l') o f = upd_nth l o f ++ l'.
Proof.
  revert o. induction l as [|v l IH]; intros [|o] H; cbn [length] in H; try lia; cbn [app upd_nth]; [reflexivity|].
  f_equal. apply IH. lia.
Qed.

(** The state in which AddVersion starts to generate a key. *)
Definition add_prepare (ks : keyset) (s : status) : keyset :=
  let o := length (ks_objs ks) in
  let ks1 := set_objs ks (ks_objs ks ++ [MkVersion (max_version ks + 1) s false]) in
  if status_eqb s PRIMARY then
    set_primary (match ks_primary ks with Some p => set_status ks1 p ACTIVE | None => ks1 end) (Some o)
  else ks1.

Lemma drop_max ks : max_version (drop_primary ks) = max_version ks.
Proof.
  unfold drop_primary. destruct (ks_primary ks) as [p|]; [|reflexivity].
  unfold max_version, set_primary, set_status, set_objs, ks_versions. cbn [ks_objs ks_vkeys].
  generalize 0 as m. generalize (map fst (ks_vkeys ks)) as l. induction l as [|a l IH]; intros m; [reflexivity|].
  cbn [fold_left]. rewrite !deref_num. apply IH.
Qed.

Lemma add_prepare_eq ks s : inv ks -> add_prepare ks s =
  if status_eqb s PRIMARY then
    set_primary (set_objs (drop_primary ks) (ks_objs (drop_primary ks) ++ [MkVersion (max_version ks + 1) s false])) (Some (length (ks_objs (drop_primary ks))))
  else set_objs ks (ks_objs ks ++ [MkVersion (max_version ks + 1) s false]).
Proof.
  intros I. unfold add_prepare. destruct (status_eqb s PRIMARY); [|reflexivity].
  unfold drop_primary. destruct (ks_primary ks) as [p|] eqn:E; [|reflexivity].
  pose proof (inv_prim2 ks I p E) as (Hr & _). unfold set_primary, set_status, set_objs. cbn. rewrite length_upd, upd_app_l by assumption. reflexivity.
Qed.

Lemma drop_primary_None ks : ks_primary (drop_primary ks) = None.
Proof. unfold drop_primary. destruct (ks_primary ks) as [p|] eqn:E; [reflexivity | exact E]. Qed.

Lemma inv_add_prepare ks s : inv ks -> inv (add_prepare ks s).
Proof.
  intros I. rewrite add_prepare_eq by assumption. destruct (status_eqb s PRIMARY) eqn:E.
  - apply status_eqb_eq in E as ->. apply inv_dangling; [apply inv_drop; assumption | apply drop_primary_None].
  - apply inv_new_obj. assumption.
Qed.

Lemma NoDup_snoc {A} (l : list A) a : NoDup l -> ~ In a l -> NoDup (l ++ [a]).
Proof.
  intros H Ha. apply NoDup_rev in H. rewrite <- (rev_involutive (l ++ [a])). apply NoDup_rev. rewrite rev_app_distr. cbn.
  constructor; [rewrite <- in_rev; assumption | assumption].
Qed.

(** [AddVersion] in terms of [add_prepare]. *)
Lemma AddVersion_eq ks ds s size :
  AddVersion ks ds s size =
    let sz := match size with Some z => z | None => default_size (ks_type ks) end in
    if negb (IsValidSize (ks_type ks) sz) then (ks, Raise KeyczarError)
    else match gen_unique (ks_hkeys ks) (ks_type ks) sz ds with
         | Raise e => (add_prepare ks s, Raise e)
         | Ok (k, h) => (AddKey (add_prepare ks s) (length (ks_objs ks)) k h, Ok tt)
         end.
Proof. reflexivity. Qed.

Lemma drop_same ks : ks_mvers (drop_primary ks) = ks_mvers ks /\ ks_vkeys (drop_primary ks) = ks_vkeys ks /\
  ks_hkeys (drop_primary ks) = ks_hkeys ks /\ ks_type (drop_primary ks) = ks_type ks /\
  ks_name (drop_primary ks) = ks_name ks /\ ks_purpose (drop_primary ks) = ks_purpose ks /\ ks_encrypted (drop_primary ks) = ks_encrypted ks /\
  length (ks_objs (drop_primary ks)) = length (ks_objs ks).
Proof. unfold drop_primary. destruct (ks_primary ks); cbn; rewrite ?length_upd; repeat split; reflexivity. Qed.

Lemma prepare_same ks s : inv ks -> ks_mvers (add_prepare ks s) = ks_mvers ks /\ ks_vkeys (add_prepare ks s) = ks_vkeys ks /\
  ks_hkeys (add_prepare ks s) = ks_hkeys ks /\ ks_type (add_prepare ks s) = ks_type ks /\
  ks_name (add_prepare ks s) = ks_name ks /\ ks_purpose (add_prepare ks s) = ks_purpose ks /\ ks_encrypted (add_prepare ks s) = ks_encrypted ks /\
  length (ks_objs (add_prepare ks s)) = S (length (ks_objs ks)) /\
  deref (ks_objs (add_prepare ks s)) (length (ks_objs ks)) = MkVersion (max_version ks + 1) s false.
Proof.
  intros I. rewrite add_prepare_eq by assumption. destruct (drop_same ks) as (E1 & E2 & E3 & E4 & E5 & E6 & E7 & E8).
  destruct (status_eqb s PRIMARY).
  - unfold set_primary, set_objs. cbn [ks_mvers ks_vkeys ks_hkeys ks_type ks_name ks_purpose ks_encrypted ks_objs].
    assert (D : deref (ks_objs (drop_primary ks) ++ [MkVersion (max_version ks + 1) s false]) (length (ks_objs ks)) = MkVersion (max_version ks + 1) s false)
      by (rewrite <- E8; apply deref_app_new).
    rewrite app_length, E1, E2, E3, E4, E5, E6, E7, E8. cbn [length].
    repeat split; lia || assumption.
  - unfold set_objs. cbn [ks_mvers ks_vkeys ks_hkeys ks_type ks_name ks_purpose ks_encrypted ks_objs].
    rewrite app_length, deref_app_new. cbn [length]. repeat split; lia.
Qed.

(** The objects that were there before: their number stays, their status changes only if
    they lose the primary rank. *)
Lemma prepare_old ks s o : inv ks -> (o < length (ks_objs ks))%nat ->
  v_num (deref (ks_objs (add_prepare ks s)) o) = v_num (deref (ks_objs ks) o) /\
  v_status (deref (ks_objs (add_prepare ks s)) o) =
    (if status_eqb s PRIMARY then
       match ks_primary ks with Some p => if Nat.eqb p o then ACTIVE else v_status (deref (ks_objs ks) o) | None => v_status (deref (ks_objs ks) o) end
     else v_status (deref (ks_objs ks) o)).
Proof.
  intros I Ho. rewrite add_prepare_eq by assumption. destruct (drop_same ks) as (_ & _ & _ & _ & _ & _ & _ & E8).
  destruct (status_eqb s PRIMARY).
  - unfold set_primary, set_objs. cbn [ks_objs]. rewrite !deref_app_l by lia.
    unfold drop_primary. destruct (ks_primary ks) as [p|] eqn:E; [|split; reflexivity].
    pose proof (inv_prim2 ks I p E) as (Hr & _). unfold set_primary, set_status, set_objs. cbn [ks_objs].
    rewrite deref_num, deref_status by assumption. split; reflexivity.
  - unfold set_objs. cbn [ks_objs]. rewrite !deref_app_l by lia. split; reflexivity.
Qed.

Lemma prepare_primary ks s : ks_primary (add_prepare ks s) = if status_eqb s PRIMARY then Some (length (ks_objs ks)) else ks_primary ks.
Proof. unfold add_prepare. destruct (status_eqb s PRIMARY); [|reflexivity]. reflexivity. Qed.

Lemma fresh_obj ks : inv ks -> ~ In (length (ks_objs ks)) (ks_versions ks).
Proof. intros I H. apply (inv_range ks I) in H. lia. Qed.

Lemma fresh_num ks : inv ks -> assoc Z.eqb (ks_mvers ks) (max_version ks + 1) = None.
Proof.
  intros I. apply (assoc_None Z.eqb_eq). intros H. apply in_map_iff in H as ([n o] & E & H). cbn in E. subst n.
  destruct (inv_mvers ks I _ o H) as [H1 H2]. pose proof (max_version_ge ks o H1). lia.
Qed.

(** The state after a successful AddVersion. *)
Lemma AddKey_eq ks s k h : inv ks ->
  AddKey (add_prepare ks s) (length (ks_objs ks)) k h =
  MkKs (ks_name ks) (ks_purpose ks) (ks_type ks) (ks_encrypted ks) (ks_objs (add_prepare ks s))
    (ks_mvers ks ++ [(max_version ks + 1, length (ks_objs ks))]) (ks_vkeys ks ++ [(length (ks_objs ks), k)])
    (dict_set str_eqb (ks_hkeys ks) h k) (ks_primary (add_prepare ks s)).
Proof.
  intros I. destruct (prepare_same ks s I) as (E1 & E2 & E3 & E4 & E5 & E6 & E7 & E8 & E9).
  unfold AddKey, set_keys. cbn [ks_objs ks_mvers]. rewrite E9. cbn [v_num]. rewrite E1, fresh_num by assumption.
  unfold set_mvers. cbn. rewrite E2, E3, E4, E5, E6, E7. reflexivity.
Qed.

Lemma map_ext_in' {A B} (f g : A -> B) l l' : map f l = l' -> (forall a, In a l -> f a = g a) -> map g l = l'.
Proof. intros <- H. symmetry. apply map_ext_in. assumption. Qed.

Lemma inv_AddKey ks s k h : inv ks -> key_type k = ks_type ks -> key_hash_id k = Ok h ->
  assoc str_eqb (ks_hkeys ks) h = None ->
  inv (AddKey (add_prepare ks s) (length (ks_objs ks)) k h).
Proof.
  intros I HT HH HN. rewrite AddKey_eq by assumption.
  destruct (prepare_same ks s I) as (E1 & E2 & E3 & E4 & E5 & E6 & E7 & E8 & E9).
  pose proof (inv_add_prepare ks s I) as J. pose proof (prepare_primary ks s) as EP.
  set (N := length (ks_objs ks)) in *. set (ks' := add_prepare ks s) in *.
  constructor; unfold ks_versions; cbn [ks_versions ks_objs ks_mvers ks_primary ks_vkeys ks_hkeys ks_type].
  - intros o H. rewrite map_app in H. apply in_app_or in H as [H|[<-|[]]]; [|cbn; lia].
    apply (inv_range ks I) in H. lia.
  - rewrite map_app, map_app. cbn [map fst]. apply NoDup_snoc.
    + rewrite <- E2. apply (inv_nums ks' J).
    + rewrite E9. cbn [v_num]. intros C. apply in_map_iff in C as (o & E & C).
      pose proof (max_version_ge ks o C). pose proof (prepare_old ks s o I (inv_range ks I o C)) as [A _].
      fold ks' in A. lia.
  - rewrite map_app. cbn [map fst]. apply NoDup_snoc; [apply (inv_mkeys ks I)|].
    apply (assoc_None Z.eqb_eq). apply fresh_num. assumption.
  - intros n o H. rewrite map_app. apply in_app_or in H as [H|[E|[]]].
    + rewrite <- E1 in H. destruct (inv_mvers ks' J n o H) as [A B]. split; [|assumption].
      apply in_or_app. left. unfold ks_versions in A. rewrite E2 in A. exact A.
    + apply pair_inj in E as [<- <-]. split; [apply in_or_app; right; left; reflexivity|]. rewrite E9. reflexivity.
  - intros o H HP. rewrite map_app in H. apply in_app_or in H as [H|[<-|[]]].
    + apply (inv_prim1 ks' J o); [unfold ks_versions; rewrite E2; exact H | exact HP].
    + cbn [fst] in HP. rewrite E9 in HP. cbn [v_status] in HP. subst s. rewrite EP. reflexivity.
  - intros o H. destruct (inv_prim2 ks' J o H) as (A & B & C). split; [exact A|]. split; [exact B|].
    intros D. rewrite !map_app in *. apply in_app_or in D as [D|D]; apply in_or_app; [left|right].
    + rewrite <- E1. apply C. unfold ks_versions. rewrite E2. exact D.
    + exact D.
  - intros o k' H. apply in_app_or in H as [H|[E|[]]]; [apply (inv_type ks I o k' H)|].
    apply pair_inj in E as [_ <-]. exact HT.
  - intros o k' H. apply in_app_or in H as [H|[E|[]]].
    + destruct (inv_hash1 ks I o k' H) as (h' & k2 & A & B). exists h'. rewrite (assoc_set _ str_eqb_eq).
      destruct (str_eqb h h'); eexists; split; try exact A; try reflexivity. exact B.
    + apply pair_inj in E as [_ <-]. exists h, k. split; [exact HH|]. rewrite (assoc_set _ str_eqb_eq), str_eqb_refl. reflexivity.
  - intros h' k' H. rewrite (assoc_set _ str_eqb_eq) in H. destruct (str_eqb h h') eqn:E.
    + apply str_eqb_eq in E as <-. apply Some_inj in H as <-. split; [exact HH|]. exists N. apply in_or_app. right. left. reflexivity.
    + destruct (inv_hash2 ks I h' k' H) as (A & o & B). split; [exact A|]. exists o. apply in_or_app. left. exact B.
Qed.

Lemma inv_Revoke ks n o : inv ks -> assoc Z.eqb (ks_mvers ks) n = Some o -> v_status (deref (ks_objs ks) o) <> PRIMARY ->
  inv (set_mvers ks (dict_pop Z.eqb (ks_mvers ks) n)).
Proof.
  intros I HA HS. pose proof (inv_mkeys ks I) as MK. destruct I. unfold set_mvers.
  constructor; cbn [ks_versions ks_objs ks_mvers ks_primary ks_vkeys ks_hkeys ks_type]; unfold ks_versions in *; cbn [ks_vkeys]; auto.
  - apply NoDup_dict_pop. assumption.
  - intros m o' H. apply (In_dict_pop _ Z.eqb_eq) in H as [H _]. auto.
  - intros o' H. destruct (inv_prim4 o' H) as (A & B & C). split; [exact A|]. split; [exact B|]. intros D. specialize (C D).
    apply in_map_iff in C as ([m o2] & E & C). cbn in E. subst o2.
    apply in_map_iff. exists (m, o'). split; [reflexivity|]. unfold dict_pop. apply filter_In. split; [exact C|].
    cbn [fst]. destruct (m =? n) eqn:E; [|reflexivity]. exfalso. apply Z.eqb_eq in E as ->.
    rewrite (assoc_NoDup Z.eqb_eq MK C) in HA. apply Some_inj in HA as <-. contradiction.
Qed.

(** Every operation, successful or not, keeps the invariant. *)
Lemma inv_step ks o : inv ks -> inv (fst (step ks o)).
Proof.
  intros I. destruct o as [ds s size|n|n|n]; cbn [step].
  - rewrite AddVersion_eq. cbv zeta. destruct (negb _); [exact I|].
    destruct (gen_unique _ _ _ ds) as [[k h]|e] eqn:EG; cbn [fst]; [|apply inv_add_prepare; exact I].
    destruct (gen_unique_ok _ _ _ _ _ _ EG) as (HH & HN & d & _ & HG).
    apply inv_AddKey; [exact I | apply (GenKey_type _ _ _ _ HG) | exact HH | exact HN].
  - unfold Promote, GetVersion. destruct (assoc Z.eqb (ks_mvers ks) n) as [o|] eqn:EA; [|exact I].
    apply (assoc_In Z.eqb_eq) in EA. pose proof (inv_mvers ks I n o EA) as [HV _].
    pose proof (inv_range ks I o HV) as HR.
    destruct (v_status (deref (ks_objs ks) o)) eqn:ES; cbn [fst]; [exact I| |].
    + assert (NP : ks_primary ks <> Some o).
      { intros C. pose proof (inv_prim2 ks I o C) as (_ & C2 & _). congruence. }
      cbv zeta. rewrite promote_active_eq by assumption. apply inv_make_primary.
      * apply inv_drop. exact I.
      * apply drop_primary_None.
      * destruct (drop_same ks) as (-> & _). apply (in_map snd) in EA. exact EA.
    + apply inv_set_status; [exact I | exact HR | discriminate |].
      intros C. pose proof (inv_prim2 ks I o C) as (_ & C2 & _). congruence.
  - unfold Demote, GetVersion. destruct (assoc Z.eqb (ks_mvers ks) n) as [o|] eqn:EA; [|exact I].
    apply (assoc_In Z.eqb_eq) in EA. pose proof (inv_mvers ks I n o EA) as [HV _].
    pose proof (inv_range ks I o HV) as HR.
    destruct (v_status (deref (ks_objs ks) o)) eqn:ES; cbn [fst]; [| |exact I].
    + apply inv_no_primary; [exact I | apply (inv_prim1 ks I o HV ES) | discriminate].
    + apply inv_set_status; [exact I | exact HR | discriminate |].
      intros C. pose proof (inv_prim2 ks I o C) as (_ & C2 & _). congruence.
  - unfold Revoke, GetVersion. destruct (assoc Z.eqb (ks_mvers ks) n) as [o|] eqn:EA; [|exact I].
    destruct (v_status (deref (ks_objs ks) o)) eqn:ES; cbn [fst]; [exact I | exact I |].
    apply (inv_Revoke ks n o I EA). congruence.
Qed.

Lemma inv_run ks ops : inv ks -> inv (run ks ops).
Proof.
  revert ks. induction ops as [|o ops IH]; intros ks I; [exact I|]. cbn [run fold_left]. apply IH. apply inv_step. exact I.
Qed.

(** ** Opening a key set *)

(** A metadata dictionary: each version under its own number. *)
Definition meta_wf (m : metadata) : Prop :=
  NoDup (map fst (m_versions m)) /\ Forall (fun p => v_num (snd p) = fst p) (m_versions m).

Lemma meta_AddVersion_wf m v : meta_wf m -> meta_wf (fst (meta_AddVersion m v)).
Proof.
  intros [H1 H2]. unfold meta_AddVersion. destruct (assoc Z.eqb (m_versions m) (v_num v)) as [w|] eqn:E; [split; assumption|].
  split; cbn [fst m_versions].
  - rewrite map_app. apply NoDup_snoc; [assumption|]. apply (assoc_None Z.eqb_eq). exact E.
  - apply Forall_app. split; [assumption|]. constructor; [reflexivity | constructor].
Qed.

Lemma add_versions_wf l : forall m m', add_versions m l = Ok m' -> meta_wf m -> meta_wf m'.
Proof.
  induction l as [|j l IH]; intros m m' H W; cbn [add_versions] in H; [apply Ok_inj in H as <-; exact W|].
  apply bind_Ok in H as (v & _ & H). apply (IH _ _ H). apply meta_AddVersion_wf. exact W.
Qed.

Lemma meta_Read_wf s m : meta_Read s = Ok m -> meta_wf m.
Proof.
  unfold meta_Read. intros H. repeat (apply bind_Ok in H as (? & ? & H)). apply (add_versions_wf _ _ _ H).
  split; constructor.
Qed.

(** What the loading loop did: one key per version, in order, read from its own file. *)
Definition loaded (rd : reader) (t : ktype) (v : kversion) (k : key) : Prop :=
  exists s h, rd_key rd (v_num v) = Ok s /\ ReadKey t s = Ok k /\ key_hash_id k = Ok h.

Definition add_id (hk : list (str * key)) (k : key) : list (str * key) :=
  match key_hash_id k with Ok h => dict_set str_eqb hk h k | Raise _ => hk end.

(** The position of the primary version, given the one found so far. *)
Inductive find_primary : nat -> list kversion -> option nat -> option nat -> Prop :=
| FpNil o p : find_primary o [] p p
| FpOther o v vs p p' : v_status v <> PRIMARY -> find_primary (S o) vs p p' -> find_primary o (v :: vs) p p'
| FpThis o v vs p' : v_status v = PRIMARY -> find_primary (S o) vs (Some o) p' -> find_primary o (v :: vs) None p'.

Lemma load_keys_ok rd t : forall vs o p vk hk p' vk' hk',
  load_keys rd t o vs p vk hk = Ok (p', vk', hk') ->
  exists l, Forall2 (loaded rd t) vs l /\ vk' = vk ++ combine (seq o (length vs)) l /\
            hk' = fold_left add_id l hk /\ find_primary o vs p p'.
Proof.
  induction vs as [|v vs IH]; intros o p vk hk p' vk' hk' H; cbn [load_keys] in H.
  - apply Ok_inj in H. apply pair_inj in H as [H <-]. apply pair_inj in H as [<- <-].
    exists []. split; [constructor|]. split; [cbn; rewrite app_nil_r; reflexivity|]. split; [reflexivity | constructor].
  - apply bind_Ok in H as (p1 & HP & H). apply bind_Ok in H as (s & HS & H). apply bind_Ok in H as (k & HK & H).
    apply bind_Ok in H as (h & HH & H). destruct (IH _ _ _ _ _ _ _ H) as (l & F & E1 & E2 & FP).
    exists (k :: l). split; [constructor; [exists s, h; repeat split; assumption | exact F]|].
    split; [rewrite E1, <- app_assoc; reflexivity|]. split.
    + cbn [fold_left]. unfold add_id at 2. rewrite HH. exact E2.
    + destruct (status_eqb (v_status v) PRIMARY) eqn:ES.
      * apply status_eqb_eq in ES. destruct p as [q|]; [discriminate|]. apply Ok_inj in HP as <-.
        apply FpThis; assumption.
      * apply Ok_inj in HP as <-. apply FpOther; [|assumption]. intros C. rewrite C in ES. discriminate.
Qed.

Lemma find_primary_some o vs q p' : find_primary o vs (Some q) p' ->
  p' = Some q /\ Forall (fun v => v_status v <> PRIMARY) vs.
Proof.
  revert o. induction vs as [|v vs IH]; intros o H; inversion H as [|? ? ? ? ? HN HF|]; subst; [split; [reflexivity | constructor]|].
  destruct (IH _ HF) as [-> F]. split; [reflexivity | constructor; assumption].
Qed.

Lemma find_primary_none o vs p' : find_primary o vs None p' ->
  (forall i v, nth_error vs i = Some v -> v_status v = PRIMARY -> p' = Some (o + i)%nat) /\
  (forall q, p' = Some q -> exists i v, q = (o + i)%nat /\ nth_error vs i = Some v /\ v_status v = PRIMARY).
Proof.
  revert o. induction vs as [|v vs IH]; intros o H; inversion H as [|? ? ? ? ? HN HF|? ? ? ? HN HF]; subst.
  - split; [intros [|i] v; discriminate | discriminate].
  - destruct (IH _ HF) as [A B]. split.
    + intros [|i] w E HP; [cbn in E; apply Some_inj in E as ->; contradiction|]. rewrite (A i w E HP). f_equal. lia.
    + intros q HQ. destruct (B q HQ) as (i & w & -> & E & HP). exists (S i), w. repeat split; [lia | exact E | exact HP].
  - destruct (find_primary_some _ _ _ _ HF) as [-> F]. split.
    + intros [|i] w E HP; [f_equal; lia|]. cbn in E. apply nth_error_In in E. rewrite Forall_forall in F. apply F in E. contradiction.
    + intros q HQ. apply Some_inj in HQ as <-. exists O, v. repeat split; [lia | assumption].
Qed.

Lemma fold_add_id l : forall hk h k,
  assoc str_eqb (fold_left add_id l hk) h = Some k ->
  (In k l /\ key_hash_id k = Ok h) \/ assoc str_eqb hk h = Some k.
Proof.
  induction l as [|a l IH]; intros hk h k H; cbn [fold_left] in H; [right; exact H|].
  destruct (IH _ _ _ H) as [[A B]|A]; [left; split; [right; exact A | exact B]|].
  unfold add_id in A. destruct (key_hash_id a) as [h'|e] eqn:E; [|right; exact A].
  rewrite (assoc_set _ str_eqb_eq) in A. destruct (str_eqb h' h) eqn:E2; [|right; exact A].
  apply str_eqb_eq in E2 as <-. apply Some_inj in A as <-. left. split; [left; reflexivity | exact E].
Qed.

Lemma fold_add_id_has l : forall hk h k, (In k l /\ key_hash_id k = Ok h) \/ (exists k', assoc str_eqb hk h = Some k') ->
  exists k', assoc str_eqb (fold_left add_id l hk) h = Some k'.
Proof.
  induction l as [|a l IH]; intros hk h k H; cbn [fold_left].
  - destruct H as [[[] _]|H]. exact H.
  - apply (IH _ h k). destruct H as [[[->|A] B]|(k' & H)].
    + right. unfold add_id. rewrite B. rewrite (assoc_set _ str_eqb_eq), str_eqb_refl. eexists. reflexivity.
    + left. split; assumption.
    + right. unfold add_id. destruct (key_hash_id a) as [h'|e]; [|exists k'; exact H].
      rewrite (assoc_set _ str_eqb_eq). destruct (str_eqb h' h); eexists; [reflexivity | exact H].
Qed.

Lemma map_fst_combine {A B} (l : list A) (l' : list B) : length l = length l' -> map fst (combine l l') = l.
Proof.
  revert l'. induction l as [|a l IH]; intros [|b l'] H; try discriminate; [reflexivity|].
  cbn. f_equal. apply IH. cbn in H. lia.
Qed.
Lemma map_snd_combine {A B} (l : list A) (l' : list B) : length l = length l' -> map snd (combine l l') = l'.
Proof.
  revert l'. induction l as [|a l IH]; intros [|b l'] H; try discriminate; [reflexivity|].
  cbn. f_equal. apply IH. cbn in H. lia.
Qed.

Lemma Forall2_length' {A B} (R : A -> B -> Prop) l l' : Forall2 R l l' -> length l = length l'.
Proof. induction 1; cbn; congruence. Qed.

Lemma Forall2_In_r {A B} (R : A -> B -> Prop) l l' b : Forall2 R l l' -> In b l' -> exists a, In a l /\ R a b.
Proof.
  induction 1 as [|x y l l' H F IH]; intros HI; [destruct HI|]. destruct HI as [->|HI].
  - exists x. split; [left; reflexivity | exact H].
  - destruct (IH HI) as (a & Ha & Hb). exists a. split; [right; exact Ha | exact Hb].
Qed.

Lemma nth_deref vs i v : nth_error vs i = Some v -> deref vs i = v.
Proof. intros H. unfold deref. apply nth_error_nth. exact H. Qed.

Lemma map_deref_seq {B} vs (f : kversion -> B) : map (fun o => f (deref vs o)) (seq 0 (length vs)) = map f vs.
Proof.
  rewrite <- (map_map (fun o => deref vs o) f). f_equal. unfold deref.
  assert (G : forall (l pre : list kversion) d, map (fun o => nth o (pre ++ l) d) (seq (length pre) (length l)) = l).
  { induction l as [|a l IH]; intros pre d; [reflexivity|]. cbn [length seq map]. f_equal.
    - rewrite app_nth2 by lia. rewrite Nat.sub_diag. reflexivity.
    - replace (pre ++ a :: l) with ((pre ++ [a]) ++ l) by (rewrite <- app_assoc; reflexivity).
      specialize (IH (pre ++ [a]) d). rewrite app_length in IH. cbn [length] in IH. rewrite Nat.add_1_r in IH. exact IH. }
  apply (G vs [] (MkVersion 0 INACTIVE false)).
Qed.

(** An opened key set, described by what its reader answered. *)
Lemma open_ok c rd ks : open_keyset c rd = Ok ks ->
  exists s m l, rd_meta rd = Ok s /\ meta_Read s = Ok m /\ IsAcceptablePurpose c (m_purpose m) = true /\
    (m_encrypted m = true -> rd_encrypted rd = true) /\
    Forall2 (loaded rd (m_type m)) (meta_versions m) l /\
    ks_name ks = m_name m /\ ks_purpose ks = m_purpose m /\ ks_type ks = m_type m /\ ks_encrypted ks = m_encrypted m /\
    ks_objs ks = meta_versions m /\
    ks_mvers ks = combine (map fst (m_versions m)) (seq 0 (length (meta_versions m))) /\
    ks_vkeys ks = combine (seq 0 (length (meta_versions m))) l /\
    ks_hkeys ks = fold_left add_id l [] /\ find_primary 0 (meta_versions m) None (ks_primary ks).
Proof.
  unfold open_keyset. intros H. apply bind_Ok in H as (s & HS & H). apply bind_Ok in H as (m & HM & H).
  destruct (IsAcceptablePurpose c (m_purpose m)) eqn:EA; [|discriminate]. cbn [negb] in H.
  destruct (m_encrypted m && negb (rd_encrypted rd)) eqn:EE; [discriminate|].
  apply bind_Ok in H as ([[p vk] hk] & HL & H). apply Ok_inj in H as <-.
  destruct (load_keys_ok _ _ _ _ _ _ _ _ _ _ HL) as (l & F & -> & -> & FP).
  exists s, m, l. repeat split; try assumption.
  intros E. rewrite E in EE. destruct (rd_encrypted rd); [reflexivity | discriminate].
Qed.

Lemma inv_open c rd ks : open_keyset c rd = Ok ks -> inv ks.
Proof.
  intros H. destruct (open_ok c rd ks H) as (s & m & l & _ & HM & _ & _ & F & _ & _ & ET & _ & EO & EM & EV & EH & FP).
  pose proof (meta_Read_wf s m HM) as [W1 W2]. pose proof (Forall2_length' _ _ _ F) as HL.
  destruct (find_primary_none _ _ _ FP) as [P1 P2].
  set (vs := meta_versions m) in *.
  assert (EVer : ks_versions ks = seq 0 (length vs)).
  { unfold ks_versions. rewrite EV. apply map_fst_combine. rewrite seq_length. exact HL. }
  assert (EL : length (map fst (m_versions m)) = length vs).
  { unfold vs, meta_versions. rewrite !map_length. reflexivity. }
  assert (EN : map v_num vs = map fst (m_versions m)).
  { unfold vs, meta_versions. rewrite map_map. apply map_ext_in. intros p Hp. rewrite Forall_forall in W2. apply W2. exact Hp. }
  constructor.
  - intros o Ho. rewrite EVer in Ho. apply in_seq in Ho. rewrite EO. lia.
  - rewrite EVer, EO, map_deref_seq, EN. exact W1.
  - rewrite EM, map_fst_combine; [exact W1 | rewrite seq_length; exact EL].
  - intros n o Ho. rewrite EM in Ho. rewrite EVer, EO.
    apply In_nth_error in Ho as [i Hi].
    assert (Hn : nth_error (map fst (m_versions m)) i = Some n /\ nth_error (seq 0 (length vs)) i = Some o).
    { clear - Hi. revert i Hi. generalize (seq 0 (length vs)) as b. generalize (map fst (m_versions m)) as a.
      induction a as [|x a IH]; intros [|y b] [|i] Hi; try discriminate.
      - cbn in Hi. apply Some_inj, pair_inj in Hi as [-> ->]. split; reflexivity.
      - cbn [nth_error]. apply IH. exact Hi. }
    destruct Hn as [Hn Ho].
    assert (o = i /\ (i < length vs)%nat) as [-> Hlt].
    { pose proof (nth_error_Some (seq 0 (length vs)) i) as S. rewrite Ho in S. rewrite seq_length in S.
      assert (i < length vs)%nat by (apply S; discriminate). split; [|assumption].
      rewrite (nth_error_nth' _ O) in Ho by (rewrite seq_length; assumption).
      rewrite seq_nth in Ho by assumption. apply Some_inj in Ho. lia. }
    split; [apply in_seq; lia|]. rewrite <- EN in Hn. rewrite nth_error_map in Hn.
    destruct (nth_error vs i) as [v|] eqn:Ev; [|discriminate]. rewrite (nth_deref _ _ _ Ev). apply Some_inj in Hn. exact Hn.
  - intros o Ho HP. rewrite EVer in Ho. apply in_seq in Ho. rewrite EO in HP.
    destruct (nth_error vs o) as [v|] eqn:Ev; [|apply nth_error_None in Ev; lia].
    rewrite (nth_deref _ _ _ Ev) in HP. rewrite (P1 o v Ev HP). reflexivity.
  - intros o Ho. destruct (P2 o Ho) as (i & v & -> & Ev & HP). cbn [Nat.add]. rewrite EO.
    assert (i < length vs)%nat by (apply nth_error_Some; congruence).
    split; [assumption|]. rewrite (nth_deref _ _ _ Ev). split; [exact HP|]. intros _.
    rewrite EM, map_snd_combine by (rewrite seq_length; exact EL). apply in_seq. lia.
  - intros o k Hk. rewrite EV in Hk. apply in_combine_r in Hk. destruct (Forall2_In_r _ _ _ _ F Hk) as (v & _ & (s' & h & _ & HR & _)).
    rewrite ET. apply (ReadKey_type _ _ _ HR).
  - intros o k Hk. rewrite EV in Hk. apply in_combine_r in Hk. destruct (Forall2_In_r _ _ _ _ F Hk) as (v & _ & (s' & h & _ & _ & HH)).
    rewrite EH. destruct (fold_add_id_has l [] h k (or_introl (conj Hk HH))) as (k' & A). exists h, k'. split; assumption.
  - intros h k Hk. rewrite EH in Hk. destruct (fold_add_id l [] h k Hk) as [[A B]|A]; [|discriminate].
    split; [exact B|]. rewrite EV. apply In_nth_error in A as [i Hi].
    exists i. assert (i < length vs)%nat by (rewrite HL; apply nth_error_Some; congruence).
    apply nth_error_In with (n := i).
    clear - Hi H0. assert (G : forall (l : list key) n a i k, nth_error l i = Some k -> (i < n)%nat -> nth_error (combine (seq a n) l) i = Some ((a + i)%nat, k)).
    { intros l0. induction l0 as [|x l0 IH]; intros n a i0 k0 H1 H2; [destruct i0; discriminate H1|]. destruct n as [|n]; [lia|].
      destruct i0 as [|i0]; cbn [seq combine nth_error] in *; [rewrite Nat.add_0_r; congruence|].
      rewrite (IH n (S a) i0 k0 H1) by lia. f_equal. f_equal. lia. }
    apply (G l (length vs) 0%nat i k Hi H0).
Qed.

(** ** Key sets as key rings *)

Lemma ring_status ks n o k s : inv ks -> assoc Z.eqb (ks_mvers ks) n = Some o -> assoc Nat.eqb (ks_vkeys ks) o = Some k ->
  forall m, ring_of (set_status ks o s) m = if m =? n then Some (s, k) else ring_of ks m.
Proof.
  intros I HA HK m. pose proof (inv_mvers ks I n o (assoc_In Z.eqb_eq HA)) as [HV HN].
  pose proof (inv_range ks I o HV) as HR. unfold ring_of, set_status, set_objs. cbn [ks_mvers ks_vkeys ks_objs].
  destruct (m =? n) eqn:E.
  - apply Z.eqb_eq in E as ->. rewrite HA, HK, deref_status by assumption. rewrite Nat.eqb_refl. reflexivity.
  - destruct (assoc Z.eqb (ks_mvers ks) m) as [o'|] eqn:EM; [|reflexivity].
    destruct (assoc Nat.eqb (ks_vkeys ks) o') as [k'|]; [|reflexivity]. rewrite deref_status by assumption.
    destruct (Nat.eqb o o') eqn:EO; [|reflexivity]. apply Nat.eqb_eq in EO as <-.
    pose proof (inv_mvers ks I m o (assoc_In Z.eqb_eq EM)) as [_ HN2]. lia.
Qed.

Lemma ring_set_primary ks p m : ring_of (set_primary ks p) m = ring_of ks m.
Proof. reflexivity. Qed.

Lemma ring_entry ks n s k : inv ks -> ring_of ks n = Some (s, k) ->
  exists o, assoc Z.eqb (ks_mvers ks) n = Some o /\ assoc Nat.eqb (ks_vkeys ks) o = Some k /\
    v_status (deref (ks_objs ks) o) = s /\ In o (ks_versions ks).
Proof.
  intros I H. unfold ring_of in H. destruct (assoc Z.eqb (ks_mvers ks) n) as [o|] eqn:EA; [|discriminate].
  destruct (assoc Nat.eqb (ks_vkeys ks) o) as [k'|] eqn:EK; [|discriminate]. apply Some_inj, pair_inj in H as [<- <-].
  exists o. repeat split; try assumption; try reflexivity. apply (inv_mvers ks I n o (assoc_In Z.eqb_eq EA)).
Qed.

Lemma ring_known ks n o : inv ks -> assoc Z.eqb (ks_mvers ks) n = Some o ->
  exists k, assoc Nat.eqb (ks_vkeys ks) o = Some k /\ ring_of ks n = Some (v_status (deref (ks_objs ks) o), k).
Proof.
  intros I HA. pose proof (inv_mvers ks I n o (assoc_In Z.eqb_eq HA)) as [HV _].
  destruct (version_has_key ks o HV) as (k & HK). exists k. split; [exact HK|]. unfold ring_of. rewrite HA, HK. reflexivity.
Qed.

Lemma ring_drop ks m : inv ks -> ring_of (drop_primary ks) m = unprimary (ring_of ks m).
Proof.
  intros I. unfold ring_of. destruct (drop_same ks) as (E1 & E2 & _). rewrite E1, E2.
  destruct (assoc Z.eqb (ks_mvers ks) m) as [o|] eqn:EA; [|reflexivity].
  pose proof (inv_mvers ks I m o (assoc_In Z.eqb_eq EA)) as [HV _].
  destruct (assoc Nat.eqb (ks_vkeys ks) o) as [k|]; [|reflexivity].
  unfold drop_primary. destruct (ks_primary ks) as [p|] eqn:EP.
  - pose proof (inv_prim2 ks I p EP) as (Hr & HP & _). unfold set_primary, set_status, set_objs. cbn [ks_objs].
    rewrite deref_status by assumption. destruct (Nat.eqb p o) eqn:EO.
    + apply Nat.eqb_eq in EO as <-. rewrite HP. reflexivity.
    + destruct (v_status (deref (ks_objs ks) o)) eqn:ES; try reflexivity.
      pose proof (inv_prim1 ks I o HV ES) as C. rewrite EP in C. apply Some_inj in C. apply Nat.eqb_neq in EO. contradiction.
  - destruct (v_status (deref (ks_objs ks) o)) eqn:ES; try reflexivity.
    pose proof (inv_prim1 ks I o HV ES) as C. congruence.
Qed.

Lemma ring_new_obj ks v m : inv ks -> ring_of (set_objs ks (ks_objs ks ++ [v])) m = ring_of ks m.
Proof.
  intros I. unfold ring_of, set_objs. cbn [ks_mvers ks_vkeys ks_objs].
  destruct (assoc Z.eqb (ks_mvers ks) m) as [o|] eqn:EA; [|reflexivity].
  pose proof (inv_mvers ks I m o (assoc_In Z.eqb_eq EA)) as [HV _]. rewrite deref_app_l by (apply (inv_range ks I o HV)). reflexivity.
Qed.

Lemma ring_prepare ks s m : inv ks -> ring_of (add_prepare ks s) m =
  match s with PRIMARY => unprimary (ring_of ks m) | _ => ring_of ks m end.
Proof.
  intros I. rewrite add_prepare_eq by assumption.
  destruct s; cbn [status_eqb]; rewrite ?ring_set_primary, ring_new_obj by (assumption || apply inv_drop; assumption);
    [apply ring_drop; exact I | reflexivity | reflexivity].
Qed.

Lemma ring_AddKey ks s k h m : inv ks ->
  ring_of (AddKey (add_prepare ks s) (length (ks_objs ks)) k h) m = ring_add (ring_of ks) (max_version ks + 1) s k m.
Proof.
  intros I. pose proof (ring_prepare ks s m I) as RP. rewrite AddKey_eq by assumption.
  destruct (prepare_same ks s I) as (E1 & E2 & E3 & E4 & E5 & E6 & E7 & E8 & E9).
  unfold ring_add. unfold ring_of at 1. cbn [ks_mvers ks_vkeys ks_objs].
  rewrite assoc_app. cbn [assoc]. destruct (m =? max_version ks + 1) eqn:E.
  - apply Z.eqb_eq in E as ->. rewrite fresh_num by assumption. rewrite Z.eqb_refl, assoc_app.
    assert (HN : assoc Nat.eqb (ks_vkeys ks) (length (ks_objs ks)) = None).
    { apply (assoc_None Nat.eqb_eq). apply fresh_obj. assumption. }
    rewrite HN. cbn [assoc]. rewrite Nat.eqb_refl, E9. reflexivity.
  - rewrite Z.eqb_sym, E. unfold ring_of at 1 in RP. rewrite E1, E2 in RP. rewrite <- RP.
    destruct (assoc Z.eqb (ks_mvers ks) m) as [o|] eqn:EA; [|reflexivity].
    rewrite assoc_app. destruct (ring_known ks m o I EA) as (k' & HK & _). rewrite HK. reflexivity.
Qed.

Lemma ring_revoke_eq ks n m : ring_of (set_mvers ks (dict_pop Z.eqb (ks_mvers ks) n)) m = if m =? n then None else ring_of ks m.
Proof.
  unfold ring_of, set_mvers. cbn [ks_mvers ks_vkeys ks_objs]. rewrite (assoc_pop _ Z.eqb_eq), Z.eqb_sym.
  destruct (m =? n); reflexivity.
Qed.

(** The primary key is the key of the version whose status is PRIMARY. *)
Lemma primary_key_spec ks k : inv ks -> primary_key ks = Ok k <-> exists n, ring_of ks n = Some (PRIMARY, k).
Proof.
  intros I. unfold primary_key, GetKey_version. split.
  - destruct (ks_primary ks) as [o|] eqn:EP; [|discriminate]. intros H.
    destruct (assoc Nat.eqb (ks_vkeys ks) o) as [k'|] eqn:EK; [|discriminate]. apply Ok_inj in H as ->.
    destruct (inv_prim2 ks I o EP) as (_ & HP & HM).
    assert (HV : In o (ks_versions ks)).
    { apply (assoc_In Nat.eqb_eq) in EK. apply (in_map fst) in EK. exact EK. }
    apply HM in HV. apply in_map_iff in HV as ([n o'] & E & HV). cbn in E. subst o'.
    exists n. unfold ring_of. rewrite (assoc_NoDup Z.eqb_eq (inv_mkeys ks I) HV), EK, HP. reflexivity.
  - intros (n & H). destruct (ring_entry ks n _ k I H) as (o & HA & HK & HS & HV).
    rewrite (inv_prim1 ks I o HV HS), HK. reflexivity.
Qed.

Lemma primary_key_fails ks e : primary_key ks = Raise e -> exists h, e = KeyNotFoundError h.
Proof.
  unfold primary_key, GetKey_version. destruct (ks_primary ks) as [o|]; [|intros H; apply Raise_inj in H as <-; eexists; reflexivity].
  destruct (assoc Nat.eqb (ks_vkeys ks) o); [discriminate|]. intros H. apply Raise_inj in H as <-. eexists. reflexivity.
Qed.

Lemma ring_one_primary ks : inv ks -> forall n m k k', ring_of ks n = Some (PRIMARY, k) -> ring_of ks m = Some (PRIMARY, k') -> n = m /\ k = k'.
Proof.
  intros I n m k k' H H'. destruct (ring_entry ks n _ k I H) as (o & HA & HK & HS & HV).
  destruct (ring_entry ks m _ k' I H') as (o' & HA' & HK' & HS' & HV').
  pose proof (inv_prim1 ks I o HV HS) as P. pose proof (inv_prim1 ks I o' HV' HS') as P'.
  rewrite P in P'. apply Some_inj in P' as <-.
  pose proof (inv_mvers ks I n o (assoc_In Z.eqb_eq HA)) as [_ A]. pose proof (inv_mvers ks I m o (assoc_In Z.eqb_eq HA')) as [_ B].
  split; congruence.
Qed.

(** ** Distinct identifiers *)

(** No two keys of the set have the same identifier. *)
Definition ids_distinct (ks : keyset) : Prop := NoDup (map (fun p => key_hash_id (snd p)) (ks_vkeys ks)).

Lemma ids_lookup ks o k h : inv ks -> ids_distinct ks -> In (o, k) (ks_vkeys ks) -> key_hash_id k = Ok h ->
  GetKey_hash ks h = Ok k.
Proof.
  intros I D HI HH. destruct (inv_hash1 ks I o k HI) as (h' & k' & HH' & HA). rewrite HH in HH'. apply Ok_inj in HH' as <-.
  destruct (inv_hash2 ks I h k' HA) as (HK & o' & HI'). unfold GetKey_hash. rewrite HA. f_equal.
  unfold ids_distinct in D. revert HI HI' D HH HK. clear. induction (ks_vkeys ks) as [|[a b] l IH]; intros H H' D E E'; [destruct H|].
  cbn [map snd] in D. inversion D as [|? ? N1 N2]; subst. destruct H as [H|H], H' as [H'|H'].
  - congruence.
  - exfalso. apply pair_inj in H as [_ ->]. apply N1. rewrite E, <- E'. apply (in_map (fun p => key_hash_id (snd p))) in H'. exact H'.
  - exfalso. apply pair_inj in H' as [_ ->]. apply N1. rewrite E', <- E. apply (in_map (fun p => key_hash_id (snd p))) in H. exact H.
  - apply IH; assumption.
Qed.

Lemma vkeys_step ks o : inv ks -> ks_vkeys (fst (step ks o)) = ks_vkeys ks \/
  exists k h n, ks_vkeys (fst (step ks o)) = ks_vkeys ks ++ [(n, k)] /\ key_hash_id k = Ok h /\ assoc str_eqb (ks_hkeys ks) h = None.
Proof.
  intros I. destruct o as [ds s size|n|n|n]; cbn [step].
  - rewrite AddVersion_eq. cbv zeta. destruct (negb _); [left; reflexivity|].
    destruct (gen_unique _ _ _ ds) as [[k h]|e] eqn:EG; cbn [fst].
    + destruct (gen_unique_ok _ _ _ _ _ _ EG) as (HH & HN & d & _ & HG). right. exists k, h. eexists.
      rewrite AddKey_eq by assumption. cbn [ks_vkeys]. repeat split; assumption.
    + left. apply (prepare_same ks s I).
  - left. unfold Promote. destruct (GetVersion ks n) as [o|]; [|reflexivity].
    destruct (v_status _); try reflexivity. cbv zeta. cbn. destruct (ks_primary ks); reflexivity.
  - left. unfold Demote. destruct (GetVersion ks n) as [o|]; [|reflexivity]. destruct (v_status _); reflexivity.
  - left. unfold Revoke. destruct (GetVersion ks n) as [o|]; [|reflexivity]. destruct (v_status _); reflexivity.
Qed.

Lemma ids_step ks o : inv ks -> ids_distinct ks -> ids_distinct (fst (step ks o)).
Proof.
  intros I D. unfold ids_distinct. destruct (vkeys_step ks o I) as [->|(k & h & n & -> & HH & HN)]; [exact D|].
  rewrite map_app. apply NoDup_snoc; [exact D|]. cbn [snd]. rewrite HH. intros C. apply in_map_iff in C as ([o' k'] & E & C).
  cbn [snd] in E. destruct (inv_hash1 ks I o' k' C) as (h' & k2 & A & B). rewrite E in A. apply Ok_inj in A as <-. congruence.
Qed.

Lemma ids_run ks ops : inv ks -> ids_distinct ks -> ids_distinct (run ks ops).
Proof.
  revert ks. induction ops as [|o ops IH]; intros ks I D; [exact D|]. cbn [run fold_left].
  apply IH; [apply inv_step; exact I | apply ids_step; assumption].
Qed.

(** Identifiers once known stay known, for the same key. *)
Lemma hash_step ks o h k : inv ks -> GetKey_hash ks h = Ok k -> GetKey_hash (fst (step ks o)) h = Ok k.
Proof.
  intros I H. unfold GetKey_hash in *. destruct o as [ds s size|n|n|n]; cbn [step].
  - rewrite AddVersion_eq. cbv zeta. destruct (negb _); [exact H|].
    destruct (gen_unique _ _ _ ds) as [[k' h']|e] eqn:EG; cbn [fst].
    + destruct (gen_unique_ok _ _ _ _ _ _ EG) as (HH & HN & d & _ & HG).
      rewrite AddKey_eq by assumption. cbn [ks_hkeys]. rewrite (assoc_set _ str_eqb_eq). destruct (str_eqb h' h) eqn:E; [|exact H].
      apply str_eqb_eq in E as ->. rewrite HN in H. discriminate.
    + destruct (prepare_same ks s I) as (_ & _ & -> & _). exact H.
  - unfold Promote. destruct (GetVersion ks n) as [o|]; [|exact H].
    destruct (v_status _); try exact H. cbv zeta. cbn. destruct (ks_primary ks); exact H.
  - unfold Demote. destruct (GetVersion ks n) as [o|]; [|exact H]. destruct (v_status _); exact H.
  - unfold Revoke. destruct (GetVersion ks n) as [o|]; [|exact H]. destruct (v_status _); exact H.
Qed.

Lemma hash_run ks ops h k : inv ks -> GetKey_hash ks h = Ok k -> GetKey_hash (run ks ops) h = Ok k.
Proof.
  revert ks. induction ops as [|o ops IH]; intros ks I H; [exact H|]. cbn [run fold_left].
  apply IH; [apply inv_step; exact I | apply hash_step; assumption].
Qed.

(** ** Histories *)

Lemma run_app ks a b : run ks (a ++ b) = run (run ks a) b.
Proof. unfold run. apply fold_left_app. Qed.

(** Versions once in the set stay in memory and keep their number. *)
Lemma versions_step ks op o : inv ks -> In o (ks_versions ks) ->
  In o (ks_versions (fst (step ks op))) /\ v_num (deref (ks_objs (fst (step ks op))) o) = v_num (deref (ks_objs ks) o).
Proof.
  intros I HV. pose proof (inv_range ks I o HV) as HR. split.
  - unfold ks_versions. destruct (vkeys_step ks op I) as [->|(k & h & n & -> & _)]; [exact HV|].
    rewrite map_app. apply in_or_app. left. exact HV.
  - destruct op as [ds s size|n|n|n]; cbn [step].
    + rewrite AddVersion_eq. cbv zeta. destruct (negb _); [reflexivity|].
      pose proof (proj1 (prepare_old ks s o I HR)) as P.
      destruct (gen_unique _ _ _ ds) as [[k h]|e] eqn:EG; cbn [fst]; [|exact P].
      rewrite AddKey_eq by assumption. exact P.
    + unfold Promote. destruct (GetVersion ks n) as [a|]; [|reflexivity].
      destruct (v_status _); cbn [fst]; [reflexivity | | apply deref_num].
      cbv zeta. destruct (ks_primary ks) as [p|] eqn:EP; unfold set_primary, set_status, set_objs; cbn [ks_objs];
        rewrite ?deref_num; reflexivity.
    + unfold Demote. destruct (GetVersion ks n) as [a|]; [|reflexivity].
      destruct (v_status _); cbn [fst]; try reflexivity; apply deref_num.
    + unfold Revoke. destruct (GetVersion ks n) as [a|]; [|reflexivity]. destruct (v_status _); reflexivity.
Qed.

Lemma max_version_attained ks : max_version ks = 0 \/
  exists o, In o (ks_versions ks) /\ v_num (deref (ks_objs ks) o) = max_version ks.
Proof.
  unfold max_version.
  assert (G : forall l m, fold_left (fun m o => if m <? v_num (deref (ks_objs ks) o) then v_num (deref (ks_objs ks) o) else m) l m = m \/
    exists o, In o l /\ v_num (deref (ks_objs ks) o) = fold_left (fun m o => if m <? v_num (deref (ks_objs ks) o) then v_num (deref (ks_objs ks) o) else m) l m).
  { intros l. induction l as [|a l IH]; intros m; [left; reflexivity|]. cbn [fold_left].
    destruct (IH (if m <? v_num (deref (ks_objs ks) a) then v_num (deref (ks_objs ks) a) else m)) as [E|(o & Ho & E)].
    - destruct (m <? v_num (deref (ks_objs ks) a)); [right; exists a; split; [left; reflexivity | symmetry; exact E] | left; exact E].
    - right. exists o. split; [right; exact Ho | exact E]. }
  destruct (G (ks_versions ks) 0) as [E|E]; [left; exact E | right; exact E].
Qed.

(** ** Using keys *)

Lemma key_Encrypt_header e k data ct : key_Encrypt e k data = Ok ct -> exists h t, key_header k = Ok h /\ ct = h ++ t.
Proof.
  destruct k as [k|k|k|k|k|k]; cbn [key_Encrypt]; intros H; try discriminate.
  - unfold AesKey_Encrypt in H. cbv zeta in H. apply bind_Ok in H as (kb & _ & H). apply bind_Ok in H as (ci & _ & H).
    apply bind_Ok in H as ([cb ci'] & _ & H). apply bind_Ok in H as (la & _ & H). apply bind_Ok in H as (h & HH & H).
    apply bind_Ok in H as (sg & _ & H). apply Ok_inj in H as <-. exists h. rewrite <- !app_assoc. eexists. split; [exact HH | reflexivity].
  - unfold RsaPublicKey_Encrypt in H. apply bind_Ok in H as (em & _ & H). apply bind_Ok in H as (cb & _ & H).
    apply bind_Ok in H as (h & HH & H). apply Ok_inj in H as <-. exists h, cb. split; [exact HH | reflexivity].
  - unfold RsaPublicKey_Encrypt in H. apply bind_Ok in H as (em & _ & H). apply bind_Ok in H as (cb & _ & H).
    apply bind_Ok in H as (h & HH & H). apply Ok_inj in H as <-. exists h, cb. split; [exact HH | reflexivity].
Qed.

Lemma ring_no_primary ks : inv ks -> (forall n k, ring_of ks n <> Some (PRIMARY, k)) -> exists h, primary_key ks = Raise (KeyNotFoundError h).
Proof.
  intros I H. destruct (primary_key ks) as [k|e] eqn:E.
  - apply (primary_key_spec ks k I) in E as (n & E). exfalso. apply (H n k E).
  - destruct (primary_key_fails ks e E) as (h & ->). exists h. reflexivity.
Qed.

(** A lookup by identifier finds a key of the set with that identifier, if there is one. *)
Lemma GetKey_hash_spec ks h : inv ks ->
  (forall k, GetKey_hash ks h = Ok k -> key_hash_id k = Ok h /\ exists o, In (o, k) (ks_vkeys ks)) /\
  (forall e, GetKey_hash ks h = Raise e -> e = KeyNotFoundError h /\ forall o k, In (o, k) (ks_vkeys ks) -> key_hash_id k <> Ok h).
Proof.
  intros I. unfold GetKey_hash. destruct (assoc str_eqb (ks_hkeys ks) h) as [k|] eqn:E; split; intros x Hx; try discriminate.
  - apply Ok_inj in Hx as <-. apply (inv_hash2 ks I h k E).
  - apply Raise_inj in Hx as <-. split; [reflexivity|]. intros o k HI C. destruct (inv_hash1 ks I o k HI) as (h' & k' & HH & HA).
    rewrite C in HH. apply Ok_inj in HH as <-. congruence.
Qed.

(** In a set just opened every key in memory belongs to a version of the metadata. *)
Lemma opened_ring c rd ks k : open_keyset c rd = Ok ks ->
  (exists o, In (o, k) (ks_vkeys ks)) <-> exists n s, ring_of ks n = Some (s, k).
Proof.
  intros H. pose proof (inv_open c rd ks H) as I. split.
  - intros (o & HI). destruct (open_ok c rd ks H) as (s & m & l & _ & _ & _ & _ & HF & _ & _ & _ & _ & _ & EM & EV & _).
    assert (HM : exists n, In (n, o) (ks_mvers ks)).
    { rewrite EV in HI. apply in_combine_l in HI. apply in_seq in HI. rewrite EM.
      set (N := length (meta_versions m)) in *.
      assert (HL : length (map fst (m_versions m)) = N) by (unfold N, meta_versions; rewrite !map_length; reflexivity).
      assert (HO : (o < length (map fst (m_versions m)))%nat) by lia.
      exists (nth o (map fst (m_versions m)) 0).
      replace (nth o (map fst (m_versions m)) 0, o) with (nth o (combine (map fst (m_versions m)) (seq 0 N)) (0, O)).
      - apply nth_In. rewrite combine_length, seq_length. lia.
      - rewrite combine_nth by (rewrite seq_length; exact HL). rewrite seq_nth by lia. reflexivity. }
    destruct HM as (n & HM). exists n, (v_status (deref (ks_objs ks) o)). unfold ring_of.
    rewrite (assoc_NoDup Z.eqb_eq (inv_mkeys ks I) HM).
    assert (ND : NoDup (map fst (ks_vkeys ks))) by apply (inv_vnodup ks I).
    rewrite (assoc_NoDup Nat.eqb_eq ND HI). reflexivity.
  - intros (n & s & HR). destruct (ring_entry ks n s k I HR) as (o & _ & HK & _). exists o. apply (assoc_In Nat.eqb_eq HK).
Qed.
