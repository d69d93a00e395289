(** * Props_More3: which texts are metadata, and how the others are refused (C71). *)
From Coq Require Import Strings.String.
From Coq Require Import List ZArith NArith Bool Lia ZifyBool ZifyNat ZifyN.
From Coq.Init Require Import Byte.
From Verif Require Import PyBase PyFacts Json JsonFacts KeyInfo Keys KeysFacts KeyData KeyczarFacts Meta JsonSpec JsonSpecFacts Props_Json Props_Meta Props_More Props_More2.
Import ListNotations.
Local Open Scope Z_scope.
Ltac Zify.zify_post_hook ::= idtac.

(** ** Specification *)

(** The value a name has in an object: where the name is given more than once, the last one. *)
Definition in_force (ms : list (text * json)) (name : string) (w : json) : Prop :=
  exists a b, ms = a ++ (tx name, w) :: b /\ ~ In (tx name) (map fst b).

(** The JSON value of one version, and of a whole metadata file. *)
Definition version_value (j : json) (v : kversion) : Prop :=
  exists ms st, j = JObj ms /\ in_force ms "versionNumber" (JInt (v_num v)) /\
    In (st, v_status v) status_names /\ in_force ms "status" (JStr (tx st)) /\ in_force ms "exportable" (JBool (v_export v)).
Definition metadata_value (j : json) (name : text) (p : purpose) (t : ktype) (enc : bool) (vs : list kversion) : Prop :=
  exists ms pn tn js, j = JObj ms /\ in_force ms "name" (JStr name) /\
    In (pn, p) purpose_names /\ in_force ms "purpose" (JStr (tx pn)) /\ In (tn, t) type_names /\ in_force ms "type" (JStr (tx tn)) /\
    in_force ms "encrypted" (JBool enc) /\ in_force ms "versions" (JArr js) /\ Forall2 version_value js vs.

(** ** Proofs *)

Lemma in_force_last ms name w : in_force ms name w <-> last_member ms (tx name) = Some w.
Proof.
  split.
  - intros (a & b & -> & N). apply last_member_None in N. induction a as [|[k x] a IH]; cbn [app last_member]; [rewrite N, text_eqb_refl; reflexivity|]. rewrite IH. reflexivity.
  - induction ms as [|[k x] ms IH]; cbn [last_member]; [discriminate|]. destruct (last_member ms (tx name)) as [y|] eqn:E.
    + intros H. destruct (IH H) as (a & b & -> & N). exists ((k, x) :: a), b. split; [reflexivity | exact N].
    + destruct (text_eqb k (tx name)) eqn:EK; [|discriminate]. intros H. apply Some_inj in H as ->. apply text_eqb_eq in EK as ->. exists [], ms. split; [reflexivity|]. apply last_member_None, E.
Qed.
Lemma get_iff j name w : get j name = Ok w <-> exists ms, j = JObj ms /\ in_force ms name w.
Proof.
  split.
  - intros H. destruct j as [| | | | | |ms]; try discriminate H. cbn [get] in H. exists ms. split; [reflexivity|]. apply in_force_last. destruct (last_member ms (tx name)) as [x|]; [|discriminate H].
    apply Ok_inj in H as ->. reflexivity.
  - intros (ms & -> & H). apply in_force_last in H. cbn [get]. rewrite H. reflexivity.
Qed.
Lemma get_str_iff j name w : get_str j name = Ok w <-> get j name = Ok (JStr w).
Proof. unfold get_str. destruct (get j name) as [x|]; cbn [bind]; [|split; discriminate]. destruct x; split; intros H; try discriminate H; apply Ok_inj in H; congruence. Qed.
Lemma get_int_iff j name w : get_int j name = Ok w <-> get j name = Ok (JInt w).
Proof. unfold get_int. destruct (get j name) as [x|]; cbn [bind]; [|split; discriminate]. destruct x; split; intros H; try discriminate H; apply Ok_inj in H; congruence. Qed.
Lemma get_bool_iff j name w : get_bool j name = Ok w <-> get j name = Ok (JBool w).
Proof. unfold get_bool. destruct (get j name) as [x|]; cbn [bind]; [|split; discriminate]. destruct x; split; intros H; try discriminate H; apply Ok_inj in H; congruence. Qed.
Lemma get_arr_iff j name w : get_arr j name = Ok w <-> get j name = Ok (JArr w).
Proof. unfold get_arr. destruct (get j name) as [x|]; cbn [bind]; [|split; discriminate]. destruct x; split; intros H; try discriminate H; apply Ok_inj in H; congruence. Qed.
Lemma get_obj ms name w : get (JObj ms) name = Ok w <-> in_force ms name w.
Proof. rewrite get_iff. split; [intros (ms' & E & H); injection E as <-; exact H | intros H; exists ms; split; [reflexivity | exact H]]. Qed.

Lemma version_read_iff j v : version_read j = Ok v <-> version_value j v.
Proof.
  unfold version_read. split.
  - intros H. apply bind_Ok in H as (n & H1 & H). apply bind_Ok in H as (s & H2 & H). apply bind_Ok in H as (st & H3 & H). apply bind_Ok in H as (e & H4 & H). apply Ok_inj in H as <-.
    apply get_int_iff in H1. apply get_str_iff in H2. apply get_bool_iff in H4. apply get_iff in H1 as (ms & -> & H1). apply get_obj in H2, H4.
    apply (proj1 (proj2 C64_names)) in H3 as (nm & H3 & ->). exists ms, nm. repeat split; assumption.
  - intros (ms & st & -> & H1 & H3 & H2 & H4). apply get_obj in H1, H2, H4. apply get_int_iff in H1. apply get_str_iff in H2. apply get_bool_iff in H4. rewrite H1, H2. cbn [bind].
    assert (E : GetStatus (tx st) = Ok (v_status v)) by (apply (proj1 (proj2 C64_names)); exists st; split; [exact H3 | reflexivity]). rewrite E. cbn [bind]. rewrite H4. destruct v; reflexivity.
Qed.
Lemma versions_iff js : forall vs, mapM version_read js = Ok vs <-> Forall2 version_value js vs.
Proof.
  induction js as [|j js IH]; intros vs; cbn [mapM].
  - split; [intros H; apply Ok_inj in H as <-; constructor | intros H; inversion H; reflexivity].
  - split.
    + intros H. apply bind_Ok in H as (v & H1 & H). apply bind_Ok in H as (l & H2 & H). apply Ok_inj in H as <-. constructor; [apply version_read_iff, H1 | apply IH, H2].
    + intros H. inversion H as [|? v ? l H1 H2]; subst. apply version_read_iff in H1. apply IH in H2. rewrite H1. cbn [bind]. rewrite H2. reflexivity.
Qed.

Definition metadata_object (name : text) (p : purpose) (t : ktype) (enc : bool) (vs : list kversion) : metadata :=
  MkMeta name p t enc (map (fun v => (v_num v, v)) (first_of_each vs [])).

Lemma adds_same js : forall m m', add_versions m js = Ok m' -> same_attributes m' m.
Proof.
  induction js as [|j js IH]; intros m m' H; cbn [add_versions] in H; [apply Ok_inj in H as <-; repeat split|]. apply bind_Ok in H as (v & _ & H). apply IH in H.
  unfold meta_AddVersion in H. destruct (assoc Z.eqb (m_versions m) (v_num v)); exact H.
Qed.
Lemma adds_total js : forall m vs, mapM version_read js = Ok vs -> exists m', add_versions m js = Ok m'.
Proof.
  induction js as [|j js IH]; intros m vs H; cbn [mapM add_versions] in *; [exists m; reflexivity|]. apply bind_Ok in H as (v & H1 & H). apply bind_Ok in H as (l & H2 & _). rewrite H1. cbn [bind]. exact (IH _ l H2).
Qed.
Lemma keyed_object m : keyed m -> m_versions m = map (fun v => (v_num v, v)) (meta_versions m).
Proof.
  intros [F _]. unfold meta_versions. rewrite map_map. rewrite <- (map_id (m_versions m)) at 1. apply map_ext_in. intros [k v] HI. cbn [snd]. pose proof (proj1 (Forall_forall _ _) F _ HI) as E. cbn in E. congruence.
Qed.
Lemma adds_iff name p t enc js m : add_versions (MkMeta name p t enc []) js = Ok m <-> exists vs, mapM version_read js = Ok vs /\ m = metadata_object name p t enc vs.
Proof.
  assert (K : keyed (MkMeta name p t enc [])) by (split; constructor).
  assert (A : forall m, add_versions (MkMeta name p t enc []) js = Ok m -> exists vs, mapM version_read js = Ok vs /\ m = metadata_object name p t enc vs).
  { intros m' H. destruct (adds_first js _ m' [] K) with (2 := H) as (vs & HV & E); [intros n; reflexivity|]. exists vs. split; [exact HV|]. pose proof (keyed_object _ (keyed_adds _ _ _ K H)) as KM.
    destruct (adds_same _ _ _ H) as (E1 & E2 & E3 & E4). destruct m' as [n' p' t' e' l']. cbn [m_name m_purpose m_type m_encrypted m_versions] in *. subst. unfold metadata_object. f_equal. rewrite KM, E. reflexivity. }
  split; [apply A|]. intros (vs & HV & ->). destruct (adds_total js (MkMeta name p t enc []) vs HV) as (m' & H). rewrite H. destruct (A m' H) as (vs' & HV' & ->). rewrite HV in HV'. apply Ok_inj in HV' as <-. reflexivity.
Qed.

Lemma meta_value_iff j m : (let* n := get_str j "name" in let* p := get_str j "purpose" in let* p := GetPurpose p in let* t := get_str j "type" in let* t := GetType t in
    let* e := get_bool j "encrypted" in let* vs := get_arr j "versions" in add_versions (MkMeta n p t e []) vs) = Ok m <->
  exists name p t enc vs, metadata_value j name p t enc vs /\ m = metadata_object name p t enc vs.
Proof.
  split.
  - intros H. apply bind_Ok in H as (n & H1 & H). apply bind_Ok in H as (pn & H2 & H). apply bind_Ok in H as (p & H3 & H). apply bind_Ok in H as (tn & H4 & H). apply bind_Ok in H as (t & H5 & H).
    apply bind_Ok in H as (e & H6 & H). apply bind_Ok in H as (js & H7 & H). apply adds_iff in H as (vs & HV & ->). apply versions_iff in HV.
    apply get_str_iff in H1, H2, H4. apply get_bool_iff in H6. apply get_arr_iff in H7. apply get_iff in H1 as (ms & -> & H1). apply get_obj in H2, H4, H6, H7.
    apply (proj1 (proj2 (proj2 C64_names))) in H3 as (a & H3 & ->). apply (proj1 C64_names) in H5 as (b & H5 & ->).
    exists n, p, t, e, vs. split; [|reflexivity]. exists ms, a, b, js. repeat (split; [first [reflexivity | assumption]|]). exact HV.
  - intros (n & p & t & e & vs & (ms & a & b & js & -> & H1 & H3 & H2 & H5 & H4 & H6 & H7 & HV) & ->). apply get_obj in H1, H2, H4, H6, H7. apply get_str_iff in H1, H2, H4. apply get_bool_iff in H6. apply get_arr_iff in H7.
    rewrite H1, H2. cbn [bind]. assert (E : GetPurpose (tx a) = Ok p) by (apply (proj1 (proj2 (proj2 C64_names))); exists a; split; [exact H3 | reflexivity]). rewrite E. cbn [bind]. rewrite H4. cbn [bind].
    assert (E2 : GetType (tx b) = Ok t) by (apply (proj1 C64_names); exists b; split; [exact H5 | reflexivity]). rewrite E2. cbn [bind]. rewrite H6. cbn [bind]. rewrite H7. cbn [bind].
    apply adds_iff. exists vs. split; [apply versions_iff, HV | reflexivity].
Qed.

(** ** C71 *)

(** Exactly the texts of such JSON values are read, as the object with these attributes and, of
    each version number, the version that comes first. *)
Theorem C71_read_exactly : forall s m, meta_Read s = Ok m <->
  exists j name p t enc vs, json_text s j /\ metadata_value j name p t enc vs /\
    m_name m = name /\ m_purpose m = p /\ m_type m = t /\ m_encrypted m = enc /\
    m_versions m = map (fun v => (v_num v, v)) (first_of_each vs []).
Proof.
  intros s m. unfold meta_Read. split.
  - intros H. apply bind_Ok in H as (j & HJ & H). apply loads_grammar in HJ. apply meta_value_iff in H as (n & p & t & e & vs & HV & ->). exists j, n, p, t, e, vs. repeat (split; [first [assumption | reflexivity]|]). reflexivity.
  - intros (j & n & p & t & e & vs & HJ & HV & E1 & E2 & E3 & E4 & E5). apply loads_grammar in HJ. rewrite HJ. cbn [bind]. apply meta_value_iff. exists n, p, t, e, vs. split; [exact HV|].
    destruct m as [a b c d l]. cbn in *. subst. reflexivity.
Qed.
Print Assumptions C71_read_exactly.

(** What is not read: a text that is not JSON is refused with ValueError, a JSON text that is not
    an object with TypeError, an object with KeyError, TypeError or KeyczarError. *)
Lemma get_error ms k x : get (JObj ms) k = Raise x -> x = KeyError.
Proof. cbn [get]. destruct (last_member ms (tx k)); intros H; [discriminate H | apply Raise_inj in H as <-; reflexivity]. Qed.
Definition member_error (x : exn) : Prop := x = KeyError \/ x = TypeError \/ x = KeyczarError.
Lemma get_error_any j k x : get j k = Raise x -> member_error x.
Proof. destruct j; cbn [get]; intros H; try (apply Raise_inj in H as <-; right; left; reflexivity). left. exact (get_error _ _ _ H). Qed.
Lemma typed_errors j k x : get_str j k = Raise x \/ get_int j k = Raise x \/ get_bool j k = Raise x \/ get_arr j k = Raise x -> member_error x.
Proof.
  unfold get_str, get_int, get_bool, get_arr. pose proof (get_error_any j k) as G. destruct (get j k) as [w|y]; cbn [bind].
  - destruct w; intros [H|[H|[H|H]]]; try discriminate H; apply Raise_inj in H as <-; right; left; reflexivity.
  - intros [H|[H|[H|H]]]; apply Raise_inj in H as <-; apply G; reflexivity.
Qed.
Lemma by_name_error {A} (f : A -> string) l n x : by_name f l n = Raise x -> x = KeyczarError.
Proof. induction l as [|a l IH]; cbn [by_name]; [intros H; apply Raise_inj in H as <-; reflexivity|]. destruct (text_eqb _ _); [discriminate | exact IH]. Qed.
Ltac errors H := first [discriminate H
  | exact (typed_errors _ _ _ (or_introl H)) | exact (typed_errors _ _ _ (or_intror (or_introl H))) | exact (typed_errors _ _ _ (or_intror (or_intror (or_introl H)))) | exact (typed_errors _ _ _ (or_intror (or_intror (or_intror H))))
  | right; right; exact (by_name_error _ _ _ _ H)].
Lemma adds_error js : forall m x, add_versions m js = Raise x -> member_error x.
Proof.
  induction js as [|j js IH]; intros m x H; cbn [add_versions] in H; [discriminate H|]. apply bind_Raise in H as [H|(v & _ & H)]; [|exact (IH _ _ H)].
  unfold version_read in H. do 4 (apply bind_Raise in H as [H|(? & _ & H)]; [errors H|]). discriminate H.
Qed.

Theorem C71_refused : forall s x, meta_Read s = Raise x ->
  ((forall j, ~ json_text s j) /\ value_error x) \/
  (exists j, json_text s j /\ (forall ms, j <> JObj ms) /\ x = TypeError) \/
  (exists ms, json_text s (JObj ms) /\ (x = KeyError \/ x = TypeError \/ x = KeyczarError)).
Proof.
  unfold meta_Read. intros s x H. apply bind_Raise in H as [H|(j & HJ & H)].
  - left. assert (N : forall j, ~ json_text s j) by (apply (proj2 (proj2 (C74_reads_json s))); exists x; split; [exact H|]; destruct (proj2 (proj2 (C74_reads_json s))) as [A _];
      destruct A as (e & E & V); [intros j HJ; apply loads_grammar in HJ; congruence | rewrite H in E; apply Raise_inj in E as ->; exact V]).
    split; [exact N|]. apply (proj2 (proj2 (C74_reads_json s))) in N as (e & E & V). rewrite H in E. apply Raise_inj in E as ->. exact V.
  - right. apply loads_grammar in HJ. assert (D : (exists ms, j = JObj ms) \/ (forall ms, j <> JObj ms)) by (destruct j; [right; discriminate .. | left; eexists; reflexivity]). destruct D as [(ms & ->)|D].
    + right. exists ms. split; [exact HJ|]. do 7 (apply bind_Raise in H as [H|(? & _ & H)]; [errors H|]). exact (adds_error _ _ _ H).
    + left. exists j. split; [exact HJ|]. split; [exact D|]. destruct j; try (unfold get_str in H; cbn [get bind] in H; apply Raise_inj in H as <-; reflexivity). destruct (D m eq_refl).
Qed.
Print Assumptions C71_refused.

(** A metadata file that can be read, with one of its members left out, is refused with KeyError,
    not KeyczarError; with a purpose or type that has no such name, with KeyczarError. *)
Lemma bool_without ms name : get_bool (JObj (without name ms)) name = Raise KeyError.
Proof. unfold get_bool. rewrite get_without. reflexivity. Qed.
Lemma arr_without ms name : get_arr (JObj (without name ms)) name = Raise KeyError.
Proof. unfold get_arr. rewrite get_without. reflexivity. Qed.
Lemma bool_other ms name k : name <> k -> get_bool (JObj (without name ms)) k = get_bool (JObj ms) k.
Proof. intros N. unfold get_bool. rewrite get_other by exact N. reflexivity. Qed.
Lemma bool_unchanged ms name v k : name <> k -> get_bool (JObj (changed name v ms)) k = get_bool (JObj ms) k.
Proof. intros N. unfold get_bool. rewrite get_unchanged by exact N. reflexivity. Qed.

Theorem C71_missing_member : forall s s' ms m name, json_text s (JObj ms) -> meta_Read s = Ok m ->
  In name ["name"; "purpose"; "type"; "encrypted"; "versions"]%string -> json_text s' (JObj (without name ms)) -> meta_Read s' = Raise KeyError.
Proof.
  intros s s' ms m name HL HR HN HL'. apply loads_grammar in HL, HL'. unfold meta_Read in *. rewrite HL in HR. rewrite HL'. cbn [bind] in *. repeat (apply bind_Ok in HR as (? & ? & HR)). cbn [In] in HN.
  repeat destruct HN as [<-|HN]; try destruct HN;
    repeat match goal with
    | |- context [get_str (JObj (without ?n ms)) ?n] => rewrite (str_without ms n)
    | |- context [get_bool (JObj (without ?n ms)) ?n] => rewrite (bool_without ms n)
    | |- context [get_arr (JObj (without ?n ms)) ?n] => rewrite (arr_without ms n)
    | |- context [get_str (JObj (without ?n ms)) ?n'] => rewrite (str_other ms n n') by discriminate
    | |- context [get_bool (JObj (without ?n ms)) ?n'] => rewrite (bool_other ms n n') by discriminate
    | H : ?a = Ok _ |- context [?a] => rewrite H
    | |- _ => progress cbn [bind]
    end; reflexivity.
Qed.
Print Assumptions C71_missing_member.

Theorem C71_unknown_name : forall s s' ms m other, json_text s (JObj ms) -> meta_Read s = Ok m ->
  ((forall n p, In (n, p) purpose_names -> other <> tx n) /\ json_text s' (JObj (changed "purpose" (JStr other) ms)) \/
   (forall n t, In (n, t) type_names -> other <> tx n) /\ json_text s' (JObj (changed "type" (JStr other) ms))) -> meta_Read s' = Raise KeyczarError.
Proof.
  intros s s' ms m other HL HR [[HO HL']|[HO HL']]; apply loads_grammar in HL, HL'; unfold meta_Read in *; rewrite HL in HR; rewrite HL'; cbn [bind] in *; repeat (apply bind_Ok in HR as (? & ? & HR));
    rewrite ?str_unchanged, ?bool_unchanged, ?str_changed by discriminate; repeat match goal with H : ?a = Ok _ |- context [?a] => rewrite H; cbn [bind] end.
  - assert (E : GetPurpose other = Raise KeyczarError) by (apply (proj1 (proj2 (proj2 C64_names))); exact HO). cbn [bind]. rewrite E. reflexivity.
  - assert (E : GetType other = Raise KeyczarError) by (apply (proj1 C64_names); exact HO). cbn [bind]. rewrite E. reflexivity.
Qed.
Print Assumptions C71_unknown_name.

(** The same for a member of a version, wherever the version stands in the list. *)
Lemma adds_at js1 : forall m j js2 x vs, mapM version_read js1 = Ok vs -> version_read j = Raise x -> add_versions m (js1 ++ j :: js2) = Raise x.
Proof.
  induction js1 as [|i js1 IH]; intros m j js2 x vs H HX; cbn [app add_versions mapM] in *; [rewrite HX; reflexivity|]. apply bind_Ok in H as (v & H1 & H). apply bind_Ok in H as (l & H2 & _). rewrite H1. cbn [bind]. exact (IH _ _ _ _ l H2 HX).
Qed.
Lemma mapM_split {A B} (f : A -> res B) a : forall b l, mapM f (a ++ b) = Ok l -> exists l1, mapM f a = Ok l1.
Proof.
  induction a as [|x a IH]; intros b l H; cbn [app mapM] in *; [exists []; reflexivity|]. apply bind_Ok in H as (y & H1 & H). apply bind_Ok in H as (l' & H2 & _). destruct (IH _ _ H2) as (l1 & E). exists (y :: l1). rewrite H1, E. reflexivity.
Qed.
Lemma version_defect s s' ms js1 js2 w bad m x : json_text s (JObj ms) -> meta_Read s = Ok m -> in_force ms "versions" (JArr (js1 ++ JObj w :: js2)) ->
  json_text s' (JObj (changed "versions" (JArr (js1 ++ bad :: js2)) ms)) -> (forall v, version_read (JObj w) = Ok v -> version_read bad = Raise x) -> meta_Read s' = Raise x.
Proof.
  intros HL HR HI HL' HB. apply loads_grammar in HL, HL'. unfold meta_Read in *. rewrite HL in HR. rewrite HL'. cbn [bind] in *.
  apply bind_Ok in HR as (n & H1 & HR). apply bind_Ok in HR as (pn & H2 & HR). apply bind_Ok in HR as (p & H3 & HR). apply bind_Ok in HR as (tn & H4 & HR). apply bind_Ok in HR as (t & H5 & HR).
  apply bind_Ok in HR as (e & H6 & HR). apply bind_Ok in HR as (js & H7 & HR). apply get_obj in HI. apply get_arr_iff in HI. rewrite HI in H7. apply Ok_inj in H7 as <-.
  rewrite !str_unchanged, bool_unchanged by discriminate. rewrite H1, H2. cbn [bind]. rewrite H3. cbn [bind]. rewrite H4. cbn [bind]. rewrite H5. cbn [bind]. rewrite H6. cbn [bind].
  assert (E : get_arr (JObj (changed "versions" (JArr (js1 ++ bad :: js2)) ms)) "versions" = Ok (js1 ++ bad :: js2)) by (apply get_arr_iff, get_changed). rewrite E. cbn [bind].
  apply adds_iff in HR as (vs & HV & _). destruct (mapM_split _ _ _ _ HV) as (l1 & HV1). apply (adds_at js1 _ bad js2 x l1 HV1).
  assert (HW : exists v, version_read (JObj w) = Ok v). { clear -HV HV1. revert vs l1 HV HV1. induction js1 as [|i js1 IH]; intros vs l1 HV HV1; cbn [app mapM] in *; apply bind_Ok in HV as (v & Hv & HV); [exists v; exact Hv|].
    apply bind_Ok in HV as (l & HV & _). apply bind_Ok in HV1 as (v' & _ & HV1). apply bind_Ok in HV1 as (l' & HV1 & _). exact (IH _ _ HV HV1). }
  destruct HW as (v & HW). exact (HB v HW).
Qed.

Theorem C71_version_missing_member : forall s s' ms m js1 js2 w name, json_text s (JObj ms) -> meta_Read s = Ok m ->
  in_force ms "versions" (JArr (js1 ++ JObj w :: js2)) -> In name ["versionNumber"; "status"; "exportable"]%string ->
  json_text s' (JObj (changed "versions" (JArr (js1 ++ JObj (without name w) :: js2)) ms)) -> meta_Read s' = Raise KeyError.
Proof.
  intros s s' ms m js1 js2 w name HL HR HI HN HL'. apply (version_defect s s' ms js1 js2 w _ m _ HL HR HI HL'). intros v HV. unfold version_read in *. repeat (apply bind_Ok in HV as (? & ? & HV)). cbn [In] in HN.
  repeat destruct HN as [<-|HN]; try destruct HN;
    repeat match goal with
    | |- context [get_str (JObj (without ?n w)) ?n] => rewrite (str_without w n)
    | |- context [get_int (JObj (without ?n w)) ?n] => rewrite (int_without w n)
    | |- context [get_bool (JObj (without ?n w)) ?n] => rewrite (bool_without w n)
    | |- context [get_str (JObj (without ?n w)) ?n'] => rewrite (str_other w n n') by discriminate
    | |- context [get_int (JObj (without ?n w)) ?n'] => rewrite (int_other w n n') by discriminate
    | H : ?a = Ok _ |- context [?a] => rewrite H
    | |- _ => progress cbn [bind]
    end; reflexivity.
Qed.
Print Assumptions C71_version_missing_member.

Theorem C71_version_unknown_status : forall s s' ms m js1 js2 w other, json_text s (JObj ms) -> meta_Read s = Ok m ->
  in_force ms "versions" (JArr (js1 ++ JObj w :: js2)) -> (forall n st, In (n, st) status_names -> other <> tx n) ->
  json_text s' (JObj (changed "versions" (JArr (js1 ++ JObj (changed "status" (JStr other) w) :: js2)) ms)) -> meta_Read s' = Raise KeyczarError.
Proof.
  intros s s' ms m js1 js2 w other HL HR HI HO HL'. apply (version_defect s s' ms js1 js2 w _ m _ HL HR HI HL'). intros v HV. unfold version_read in *. repeat (apply bind_Ok in HV as (? & ? & HV)).
  rewrite int_unchanged, str_changed by discriminate. repeat match goal with H : ?a = Ok _ |- context [?a] => rewrite H; cbn [bind] end. cbn [bind].
  assert (E : GetStatus other = Raise KeyczarError) by (apply (proj1 (proj2 C64_names)); exact HO). rewrite E. reflexivity.
Qed.
Print Assumptions C71_version_unknown_status.

(** A file with a repeated member and a repeated version number; with members left out; with names
    nothing has. *)
Definition odd_metadata : str := bs "{""type"":""RSA_PUB"",""encrypted"":false,""name"":""x"",""purpose"":""VERIFY"",""type"":""HMAC_SHA1"",
  ""versions"":[{""status"":""ACTIVE"",""versionNumber"":4,""exportable"":true},{""versionNumber"":4,""status"":""PRIMARY"",""exportable"":false}]}".
Example C71_read_case : exists ms js1 w, json_text odd_metadata (JObj ms) /\
  in_force ms "type" (JStr (tx "HMAC_SHA1")) /\ in_force ms "versions" (JArr (js1 ++ JObj w :: [])) /\
  meta_Read odd_metadata = Ok (MkMeta (tx "x") VERIFY HMAC_SHA1 false [(4, MkVersion 4 ACTIVE true)]) /\
  meta_Read (dumps (JObj (without "versions" ms))) = Raise KeyError /\
  meta_Read (dumps (JObj (changed "purpose" (JStr (tx "TEST")) ms))) = Raise KeyczarError /\
  meta_Read (dumps (JObj (changed "versions" (JArr (js1 ++ JObj (without "exportable" w) :: [])) ms))) = Raise KeyError /\
  meta_Read (dumps (JObj (changed "versions" (JArr (js1 ++ JObj (changed "status" (JStr (tx "GONE")) w) :: [])) ms))) = Raise KeyczarError /\
  meta_Read (bs "[]") = Raise TypeError.
Proof.
  assert (E : exists ms, loads odd_metadata = Ok (JObj ms)) by (eexists; vm_compute; reflexivity). destruct E as (ms & E). pose proof E as E0. vm_compute in E. apply Ok_inj in E. injection E as E.
  exists ms. assert (V : exists js1 w, get (JObj ms) "versions" = Ok (JArr (js1 ++ JObj w :: []))) by (rewrite <- E; eexists [_], _; vm_compute; reflexivity).
  destruct V as (js1 & w & V). exists js1, w. split; [apply loads_grammar; exact E0|]. split; [apply get_obj; rewrite <- E; vm_compute; reflexivity|]. split; [apply get_obj, V|].
  split; [vm_compute; reflexivity|]. rewrite <- E in V |- *. vm_compute in V. apply Ok_inj in V. injection V as V.
  destruct js1 as [|i [|i' js1]]; cbn [app] in V; [discriminate V | | destruct js1; discriminate V]. injection V as <- <-. vm_compute. repeat split.
Qed.
