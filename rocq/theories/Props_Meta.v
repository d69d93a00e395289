(** * Props_Meta: a metadata object is a map from version numbers to versions (C71). *)
From Coq Require Import Strings.String.
From Coq Require Import List ZArith NArith Bool Lia ZifyBool ZifyNat ZifyN.
From Coq.Init Require Import Byte.
From Verif Require Import PyBase PyFacts Json JsonFacts KeyInfo KeyData KeyczarFacts Meta JsonSpec JsonSpecFacts.
Import ListNotations.
Local Open Scope Z_scope.
Ltac Zify.zify_post_hook ::= idtac.

(** ** Specification *)

(** A metadata object: made by the constructor or read from a text, then changed by any calls. *)
Inductive meta_object : metadata -> Prop :=
| meta_new n p t e : meta_object (MkMeta n p t e [])
| meta_read s m : meta_Read s = Ok m -> meta_object m
| meta_called m c : meta_object m -> meta_object (meta_after m c).

(** The version numbered [n] is listed. *)
Definition has_number (vs : list kversion) (n : Z) : Prop := exists v, In v vs /\ v_num v = n.

(** The name, purpose, type and flag. *)
Definition same_attributes (a b : metadata) : Prop :=
  m_name a = m_name b /\ m_purpose a = m_purpose b /\ m_type a = m_type b /\ m_encrypted a = m_encrypted b.

(** ** Proofs *)

Definition keyed (m : metadata) : Prop :=
  Forall (fun p => fst p = v_num (snd p)) (m_versions m) /\ NoDup (map fst (m_versions m)).

Lemma keyed_map m : keyed m -> map fst (m_versions m) = map v_num (meta_versions m).
Proof.
  intros [F _]. unfold meta_versions. rewrite map_map. apply map_ext_in. intros p HP. exact (proj1 (Forall_forall _ _) F p HP).
Qed.

Lemma assoc_number m n : keyed m -> match assoc Z.eqb (m_versions m) n with
  | Some v => In v (meta_versions m) /\ v_num v = n
  | None => ~ has_number (meta_versions m) n end.
Proof.
  intros K. destruct (assoc Z.eqb (m_versions m) n) as [v|] eqn:E.
  - apply (assoc_In Z.eqb_eq) in E. split; [apply (in_map snd) in E; exact E|]. destruct K as [F _]. symmetry. exact (proj1 (Forall_forall _ _) F _ E).
  - intros (v & HI & HN). assert (H : In n (map fst (m_versions m))) by (rewrite (keyed_map m K), <- HN; apply in_map; exact HI).
    clear -E H. induction (m_versions m) as [|[k w] l IH]; [exact H|]. cbn [assoc map fst] in *. destruct H as [<-|H].
    + rewrite Z.eqb_refl in E. discriminate.
    + destruct (k =? n); [discriminate|]. auto.
Qed.

Lemma unique_number m v w : keyed m -> In v (meta_versions m) -> In w (meta_versions m) -> v_num v = v_num w -> v = w.
Proof.
  intros K HV HW E. pose proof (keyed_map m K) as KM. destruct K as [_ ND]. rewrite KM in ND. clear KM.
  revert HV HW ND. generalize (meta_versions m) as l. induction l as [|a l IH]; intros HV HW ND; [destruct HV|]. cbn [map] in ND. apply NoDup_cons_iff in ND as [N1 N2].
  destruct HV as [->|HV], HW as [->|HW]; auto; exfalso; apply N1; [rewrite E|rewrite <- E]; apply in_map; assumption.
Qed.

Lemma keyed_add m v : keyed m -> keyed (fst (meta_AddVersion m v)).
Proof.
  intros [F ND]. unfold meta_AddVersion. pose proof (assoc_number m (v_num v) (conj F ND)) as H. destruct (assoc Z.eqb (m_versions m) (v_num v)) as [w|] eqn:E; [split; assumption|].
  split; cbn [fst m_versions].
  - apply Forall_app. split; [exact F|]. constructor; [reflexivity|constructor].
  - rewrite map_app. cbn [map fst]. apply NoDup_rev in ND. rewrite <- rev_involutive. apply NoDup_rev. rewrite rev_app_distr. cbn [rev app]. constructor; [|exact ND].
    rewrite <- in_rev. intros HI. apply H. rewrite (keyed_map m) in HI by (split; [exact F|]; apply NoDup_rev in ND; rewrite rev_involutive in ND; exact ND).
    apply in_map_iff in HI as (w & E1 & HI). exists w. split; [exact HI | exact E1].
Qed.

Lemma keyed_adds l : forall m m', keyed m -> add_versions m l = Ok m' -> keyed m'.
Proof.
  induction l as [|j l IH]; intros m m' K H; cbn [add_versions] in H; [apply Ok_inj in H as <-; exact K|].
  apply bind_Ok in H as (v & _ & H). exact (IH _ _ (keyed_add m v K) H).
Qed.

Lemma keyed_read s m : meta_Read s = Ok m -> keyed m.
Proof.
  unfold meta_Read. intros H. repeat (apply bind_Ok in H as (? & _ & H)). refine (keyed_adds _ _ _ _ H). split; constructor.
Qed.

Lemma set_snd (l : list (Z * kversion)) n w v : assoc Z.eqb l n = Some v -> NoDup (map fst l) ->
  dict_set Z.eqb l n w = map (fun p => if fst p =? n then (fst p, w) else p) l /\ map fst (dict_set Z.eqb l n w) = map fst l.
Proof.
  induction l as [|[k x] l IH]; intros E ND; [discriminate E|]. cbn [assoc dict_set map fst] in *. apply NoDup_cons_iff in ND as [N1 N2]. destruct (k =? n) eqn:EK.
  - apply Z.eqb_eq in EK as ->. split; [|reflexivity]. f_equal. rewrite <- (map_id l) at 1. apply map_ext_in. intros [k' x'] HI. cbn [fst].
    destruct (k' =? n) eqn:EK'; [|reflexivity]. apply Z.eqb_eq in EK' as ->. exfalso. apply N1. apply (in_map fst) in HI. exact HI.
  - destruct (IH E N2) as [H1 H2]. split; [rewrite H1; reflexivity|]. cbn [map fst]. f_equal. exact H2.
Qed.

Lemma keyed_call m c : keyed m -> keyed (meta_after m c).
Proof.
  intros K. destruct c as [v|n|n s]; cbn [meta_after].
  - apply keyed_add, K.
  - unfold meta_RemoveVersion. destruct (assoc Z.eqb (m_versions m) n); [|exact K]. destruct K as [F ND]. split; cbn [fst set_versions m_versions].
    + apply Forall_forall. intros p HP. apply (In_dict_pop _ Z.eqb_eq) in HP as [HP _]. exact (proj1 (Forall_forall _ _) F p HP).
    + apply NoDup_dict_pop, ND.
  - unfold meta_SetStatus, meta_GetVersion. pose proof (assoc_number m n K) as H. destruct (assoc Z.eqb (m_versions m) n) as [v|] eqn:E; [|exact K]. destruct K as [F ND]. cbn [fst set_versions].
    destruct (set_snd _ n (version_SetStatus v s) v E ND) as [E1 E2]. split; cbn [fst set_versions m_versions]; [|rewrite E2; exact ND]. rewrite E1. apply Forall_forall. intros p HP.
    apply in_map_iff in HP as (q & E3 & HP). pose proof (proj1 (Forall_forall _ _) F q HP) as FQ. cbn beta in FQ. destruct (fst q =? n) eqn:EN; subst p; [|exact FQ]. cbn [fst snd].
    apply Z.eqb_eq in EN. rewrite EN. destruct H as [_ H]. destruct s; cbn [version_SetStatus with_status v_num]; symmetry; exact H.
Qed.

Lemma object_keyed m : meta_object m -> keyed m.
Proof.
  induction 1 as [n p t e|s m H|m c _ IH]; [split; constructor | exact (keyed_read _ _ H) | apply keyed_call, IH].
Qed.

(** ** C71 *)

(** No two versions of a metadata object have the same number. *)
Theorem C71_numbers_distinct : forall m, meta_object m -> NoDup (map v_num (meta_versions m)).
Proof. intros m H. apply object_keyed in H. rewrite <- (keyed_map m H). exact (proj2 H). Qed.
Print Assumptions C71_numbers_distinct.

(** AddVersion returns True and lists the version last if its number is new; otherwise it returns
    False and changes nothing. *)
Theorem C71_add : forall m v m' b, meta_object m -> meta_AddVersion m v = (m', b) ->
  same_attributes m' m /\
  (~ has_number (meta_versions m) (v_num v) -> b = true /\ meta_versions m' = meta_versions m ++ [v]) /\
  (has_number (meta_versions m) (v_num v) -> b = false /\ meta_versions m' = meta_versions m).
Proof.
  intros m v m' b HO H. pose proof (assoc_number m (v_num v) (object_keyed m HO)) as A. unfold meta_AddVersion in H. destruct (assoc Z.eqb (m_versions m) (v_num v)) as [w|]; apply pair_inj in H as [<- <-].
  - split; [repeat split|]. split; [|intros _; split; reflexivity]. intros N. exfalso. apply N. exists w. exact A.
  - split; [repeat split|]. split; [|intros N; contradiction]. intros _. split; [reflexivity|]. unfold meta_versions. cbn [m_versions]. rewrite map_app. reflexivity.
Qed.
Print Assumptions C71_add.

(** GetVersion returns the version of that number, the only one, or raises KeyczarError. *)
Theorem C71_get : forall m n, meta_object m ->
  (forall v, In v (meta_versions m) /\ v_num v = n <-> meta_GetVersion m n = Ok v) /\
  (~ has_number (meta_versions m) n <-> meta_GetVersion m n = Raise KeyczarError).
Proof.
  intros m n HO. pose proof (object_keyed m HO) as K. pose proof (assoc_number m n K) as A. unfold meta_GetVersion. destruct (assoc Z.eqb (m_versions m) n) as [w|].
  - destruct A as [A1 A2]. split.
    + intros v. split; [intros [H1 H2]; f_equal; apply (unique_number m w v K A1 H1); congruence | intros H; apply Ok_inj in H as <-; split; assumption].
    + split; [intros N; exfalso; apply N; exists w; split; assumption | discriminate].
  - split; [|tauto]. intros v. split; [intros H; exfalso; apply A; exists v; exact H | discriminate].
Qed.
Print Assumptions C71_get.

(** RemoveVersion takes away the version of that number and no other, or raises KeyczarError and
    changes nothing. *)
Theorem C71_remove : forall m n m' r, meta_object m -> meta_RemoveVersion m n = (m', r) ->
  same_attributes m' m /\
  (has_number (meta_versions m) n -> (exists x, r = Ok x) /\ ~ has_number (meta_versions m') n /\
     meta_versions m' = filter (fun v => negb (v_num v =? n)) (meta_versions m)) /\
  (~ has_number (meta_versions m) n -> r = Raise KeyczarError /\ meta_versions m' = meta_versions m).
Proof.
  intros m n m' r HO H. pose proof (object_keyed m HO) as K. pose proof (assoc_number m n K) as A. unfold meta_RemoveVersion in H.
  destruct (assoc Z.eqb (m_versions m) n) as [w|]; apply pair_inj in H as [<- <-]; (split; [repeat split|]); split.
  - intros _. assert (E : meta_versions (set_versions m (dict_pop Z.eqb (m_versions m) n)) = filter (fun v => negb (v_num v =? n)) (meta_versions m)).
    { unfold meta_versions, dict_pop, set_versions. cbn [m_versions]. destruct K as [F _]. clear -F. induction F as [|[k v] l E _ IH]; [reflexivity|]. cbn [fst snd] in E. subst k.
      cbn [filter map fst snd]. destruct (negb (v_num v =? n)); cbn [map]; rewrite IH; reflexivity. }
    split; [exists None; reflexivity|]. split; [|exact E]. rewrite E. intros (v & HI & HN). apply filter_In in HI as [_ HI]. rewrite HN, Z.eqb_refl in HI. discriminate.
  - intros N. exfalso. apply N. exists w. exact A.
  - intros N. contradiction.
  - intros _. split; reflexivity.
Qed.
Print Assumptions C71_remove.

(** Assigning a status changes that of the version of that number and nothing else; None is ignored. *)
Theorem C71_set_status : forall m n s m' r, meta_object m -> meta_SetStatus m n s = (m', r) ->
  same_attributes m' m /\
  (has_number (meta_versions m) n -> r = Ok tt /\
     meta_versions m' = map (fun v => if v_num v =? n then MkVersion (v_num v) (match s with Some s => s | None => v_status v end) (v_export v) else v) (meta_versions m)) /\
  (~ has_number (meta_versions m) n -> r = Raise KeyczarError /\ meta_versions m' = meta_versions m).
Proof.
  intros m n s m' r HO H. pose proof (object_keyed m HO) as K. pose proof (assoc_number m n K) as A. unfold meta_SetStatus, meta_GetVersion in H.
  destruct (assoc Z.eqb (m_versions m) n) as [w|] eqn:E; apply pair_inj in H as [<- <-]; (split; [repeat split|]); split.
  - intros _. split; [reflexivity|]. destruct K as [F ND]. destruct (set_snd _ n (version_SetStatus w s) w E ND) as [E1 _]. unfold meta_versions, set_versions. cbn [m_versions]. rewrite E1, !map_map.
    apply map_ext_in. intros p HP. pose proof (proj1 (Forall_forall _ _) F p HP) as FP. cbn beta in FP. rewrite <- FP. destruct (fst p =? n) eqn:EP; [|reflexivity]. cbn [snd].
    assert (EW : snd p = w).
    { apply (unique_number m); [split; assumption | apply in_map, HP | apply A |]. apply Z.eqb_eq in EP. rewrite <- FP, EP. symmetry. apply A. }
    rewrite EW, FP, EW. destruct s; cbn [version_SetStatus]; [reflexivity|]. destruct w; reflexivity.
  - intros N. exfalso. apply N. exists w. exact A.
  - intros N. contradiction.
  - intros _. split; reflexivity.
Qed.
Print Assumptions C71_set_status.

(** The documentation of RemoveVersion promises the removed version: it is never returned. *)
Theorem C71_remove_returns_nothing : forall m n v, snd (meta_RemoveVersion m n) <> Ok (Some v).
Proof. intros m n v. unfold meta_RemoveVersion. destruct (assoc Z.eqb (m_versions m) n); discriminate. Qed.
Print Assumptions C71_remove_returns_nothing.

(** A text may list a number twice: the first version counts.  Reading keeps the versions listed, in
    order, except those whose number was listed before. *)
Fixpoint first_of_each (vs : list kversion) (seen : list Z) : list kversion :=
  match vs with
  | [] => []
  | v :: vs' => if existsb (Z.eqb (v_num v)) seen then first_of_each vs' seen else v :: first_of_each vs' (v_num v :: seen)
  end.

Lemma adds_first l : forall m m' seen, keyed m -> (forall n, In n seen <-> In n (map fst (m_versions m))) -> add_versions m l = Ok m' ->
  exists vs, mapM version_read l = Ok vs /\ meta_versions m' = meta_versions m ++ first_of_each vs seen.
Proof.
  induction l as [|j l IH]; intros m m' seen K S H; cbn [add_versions] in H.
  - apply Ok_inj in H as <-. exists []. split; [reflexivity|]. cbn [first_of_each]. rewrite app_nil_r. reflexivity.
  - apply bind_Ok in H as (v & HV & H). cbn [mapM]. rewrite HV. cbn [bind]. pose proof (assoc_number m (v_num v) K) as A.
    assert (X : existsb (Z.eqb (v_num v)) seen = match assoc Z.eqb (m_versions m) (v_num v) with Some _ => true | None => false end).
    { destruct (assoc Z.eqb (m_versions m) (v_num v)) as [w|] eqn:E.
      - apply existsb_exists. exists (v_num v). split; [apply S, (in_map fst _ (v_num v, w)), (assoc_In Z.eqb_eq E) | apply Z.eqb_refl].
      - destruct (existsb _ seen) eqn:X; [|reflexivity]. exfalso. apply existsb_exists in X as (n & HI & E2). apply Z.eqb_eq in E2 as <-. apply A.
        apply S in HI. rewrite (keyed_map m K) in HI. apply in_map_iff in HI as (w & E1 & HI). exists w. split; assumption. }
    destruct (assoc Z.eqb (m_versions m) (v_num v)) as [w|] eqn:E.
    + assert (EA : fst (meta_AddVersion m v) = m) by (unfold meta_AddVersion; rewrite E; reflexivity). rewrite EA in H.
      destruct (IH m m' seen K S H) as (vs & -> & EV). exists (v :: vs). split; [reflexivity|]. cbn [first_of_each]. rewrite X. exact EV.
    + assert (EA : m_versions (fst (meta_AddVersion m v)) = m_versions m ++ [(v_num v, v)]) by (unfold meta_AddVersion; rewrite E; reflexivity).
      destruct (IH _ m' (v_num v :: seen) (keyed_add m v K)) with (2 := H) as (vs & -> & EV).
      { intros n. rewrite EA, map_app, in_app_iff, <- S. cbn [map fst In]. tauto. }
      exists (v :: vs). split; [reflexivity|]. cbn [first_of_each]. rewrite X, EV. unfold meta_versions. rewrite EA, map_app, <- app_assoc. reflexivity.
Qed.

Theorem C71_read : forall s m, meta_Read s = Ok m ->
  exists j js vs, json_text s j /\ get_arr j "versions" = Ok js /\ mapM version_read js = Ok vs /\ meta_versions m = first_of_each vs [].
Proof.
  unfold meta_Read. intros s m H. apply bind_Ok in H as (j & HJ & H). apply loads_grammar in HJ. do 6 (apply bind_Ok in H as (? & _ & H)). apply bind_Ok in H as (js & HA & H).
  edestruct (adds_first js) with (seen := @nil Z) (3 := H) as (vs & HV & E); [split; constructor | intros n; reflexivity |].
  exists j, js, vs. repeat split; assumption.
Qed.
Print Assumptions C71_read.

(** A text with version 1 twice, then a removal, an assignment and an addition. *)
Example C71_case :
  let s := bs "{""name"": ""x"", ""purpose"": ""SIGN_AND_VERIFY"", ""type"": ""HMAC_SHA1"", ""encrypted"": false, ""versions"": [{""versionNumber"": 1, ""status"": ""PRIMARY"", ""exportable"": false}, {""versionNumber"": 1, ""status"": ""ACTIVE"", ""exportable"": true}, {""versionNumber"": 2, ""status"": ""INACTIVE"", ""exportable"": false}]}" in
  exists m, meta_Read s = Ok m /\ meta_versions m = [MkVersion 1 PRIMARY false; MkVersion 2 INACTIVE false] /\
    meta_versions (fst (meta_RemoveVersion m 1)) = [MkVersion 2 INACTIVE false] /\
    snd (meta_AddVersion m (MkVersion 2 ACTIVE true)) = false /\
    meta_versions (fst (meta_SetStatus m 2 (Some ACTIVE))) = [MkVersion 1 PRIMARY false; MkVersion 2 ACTIVE false] /\
    meta_GetVersion m 3 = Raise KeyczarError.
Proof. eexists. split; [vm_compute; reflexivity|]. vm_compute. repeat split. Qed.
